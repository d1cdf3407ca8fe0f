(** * Facts about normalize_reference.py (C24) *)
From Verif Require Import Base Regex Entities Common NormRef RegexFacts StrFacts Spec CommonFacts.
From Coq Require Import ZifyBool ZifyNat ZifyN.

Definition blank_cs : cset := CS false false [CRange 32 32; CRange 9 9; CRange 13 13; CRange 10 10].
Lemma SPACE_RE_eq : SPACE_RE = RRep true 1 None (RChr blank_cs).
Proof. reflexivity. Qed.
Lemma blank_cm c : cmatch blank_cs c = label_blank c.
Proof. unfold blank_cs, label_blank. cm_unfold. lia. Qed.

(** one space for every run of blanks; [r]: the previous character was a blank *)
Fixpoint collapse (r : bool) (s : str) : str :=
  match s with
  | [] => []
  | c :: s' => if label_blank c then (if r then [] else [32%N]) ++ collapse true s' else c :: collapse false s'
  end.
Lemma collapse_true s : collapse true s = collapse false (drop_while label_blank s).
Proof. induction s as [|c s IH]; cbn; [reflexivity|]. destruct (label_blank c) eqn:E; cbn; [exact IH|]. rewrite E. reflexivity. Qed.

Lemma take_while_ext {A} (f g : A -> bool) s : (forall c, f c = g c) -> take_while f s = take_while g s.
Proof. intros H. induction s as [|c s IH]; cbn; [reflexivity|]. rewrite H, IH. reflexivity. Qed.
Lemma drop_while_ext {A} (f g : A -> bool) s : (forall c, f c = g c) -> drop_while f s = drop_while g s.
Proof. intros H. induction s as [|c s IH]; cbn; [reflexivity|]. rewrite H, IH. reflexivity. Qed.
Lemma drop_while_len {A} (f : A -> bool) s : length (drop_while f s) <= length s.
Proof. induction s as [|c s IH]; cbn; [lia|]. destruct (f c); cbn; lia. Qed.

Lemma sub_collapse : forall n s prev, length s < n -> sub_loop n SPACE_RE (fun _ => [32%N]) prev s = collapse false s.
Proof.
  induction n as [|n IH]; intros s prev Hn; [lia|]. rewrite sub_loop_S, SPACE_RE_eq, match_at_plus. rewrite <- SPACE_RE_eq.
  destruct s as [|c s]; [reflexivity|]. cbn [length] in Hn. cbn [collapse]. rewrite blank_cm. destruct (label_blank c) eqn:E.
  - cbn [take_while drop_while]. rewrite blank_cm, E. cbn [is_nil]. rewrite IH.
    + rewrite collapse_true. do 2 f_equal. apply drop_while_ext, blank_cm.
    + pose proof (drop_while_len (cmatch blank_cs) s). lia.
  - rewrite IH by lia. reflexivity.
Qed.

Lemma chop_brackets l : chop_ends (in_brackets l) = l.
Proof. unfold chop_ends, in_brackets. cbn [tl]. apply removelast_last. Qed.
Lemma key_eq l : normalize_reference (in_brackets l) = translate XLAT (collapse false (strip l)).
Proof. unfold normalize_reference, re_sub. rewrite chop_brackets, sub_collapse by lia. reflexivity. Qed.

(** strip *)
Lemma drop_while_all {A} (f : A -> bool) s : forallb f s = true -> drop_while f s = [].
Proof. intros H. rewrite <- (app_nil_r s), drop_while_app_all by exact H. reflexivity. Qed.
Lemma drop_while_app_some {A} (f : A -> bool) s t : forallb f s = false -> drop_while f (s ++ t) = drop_while f s ++ t.
Proof. induction s as [|c s IH]; cbn; [discriminate|]. destruct (f c); cbn; auto. Qed.
Lemma forallb_rev {A} (f : A -> bool) s : forallb f (rev s) = forallb f s.
Proof. induction s as [|c s IH]; cbn; [reflexivity|]. rewrite forallb_app, IH. cbn. rewrite andb_true_r. apply andb_comm. Qed.
Lemma strip_right_app_all f s t : forallb f t = true -> strip_right f (s ++ t) = strip_right f s.
Proof. intros H. unfold strip_right. rewrite rev_app_distr, drop_while_app_all; [reflexivity|]. rewrite forallb_rev. exact H. Qed.
Lemma strip_right_app_some f s t : forallb f t = false -> strip_right f (s ++ t) = s ++ strip_right f t.
Proof.
  intros H. unfold strip_right. rewrite rev_app_distr, drop_while_app_some, rev_app_distr, rev_involutive; [reflexivity|].
  rewrite forallb_rev. exact H.
Qed.
Lemma blank_space w : forallb label_blank w = true -> forallb is_space w = true.
Proof. rewrite !forallb_forall. intros H c Hc. apply H in Hc. unfold label_blank in Hc. unfold is_space, in_range. lia. Qed.

Lemma collapse_app_blank a : forall r, exists (x : bool),
  forall w b, w <> [] -> forallb label_blank w = true ->
    collapse r (a ++ w ++ b) = collapse r a ++ (if x then [] else [32%N]) ++ collapse true b.
Proof.
  induction a as [|c a IH]; intros r.
  - exists r. intros w b Hn Hw. cbn [app collapse]. destruct w as [|c w]; [congruence|].
    cbn [app collapse forallb] in *. apply andb_prop in Hw as [-> Hw]. f_equal.
    clear Hn. induction w as [|d w IHw]; [reflexivity|]. cbn [app collapse forallb] in *. apply andb_prop in Hw as [-> Hw]. cbn. auto.
  - cbn [app collapse]. destruct (label_blank c).
    + destruct (IH true) as [x Hx]. exists x. intros w b Hn Hw. rewrite Hx by assumption. rewrite app_assoc. reflexivity.
    + destruct (IH false) as [x Hx]. exists x. intros w b Hn Hw. rewrite Hx by assumption. reflexivity.
Qed.

Lemma strip_collapse_inner a w w' b : w <> [] -> w' <> [] -> forallb label_blank w = true -> forallb label_blank w' = true ->
  collapse false (strip (a ++ w ++ b)) = collapse false (strip (a ++ w' ++ b)).
Proof.
  intros N1 N2 B1 B2. pose proof (blank_space _ B1) as S1. pose proof (blank_space _ B2) as S2.
  unfold strip, strip_left.
  destruct (forallb is_space a) eqn:Ea.
  - rewrite !drop_while_app_all by assumption. reflexivity.
  - rewrite !drop_while_app_some by assumption. set (a' := drop_while is_space a).
    destruct (forallb is_space b) eqn:Eb.
    + rewrite !strip_right_app_all; [reflexivity|rewrite forallb_app; rewrite S2, Eb; reflexivity|rewrite forallb_app; rewrite S1, Eb; reflexivity].
    + rewrite !app_assoc, !strip_right_app_some, <- !app_assoc by assumption.
      destruct (collapse_app_blank a' false) as [x Hx]. rewrite !Hx by assumption. reflexivity.
Qed.
Lemma strip_outer a w w' : forallb is_space w = true -> forallb is_space w' = true -> strip (w ++ a ++ w') = strip a.
Proof.
  intros H1 H2. unfold strip, strip_left. rewrite drop_while_app_all by exact H1.
  destruct (forallb is_space a) eqn:E.
  - rewrite drop_while_app_all, (drop_while_all _ a), (drop_while_all _ w') by assumption. reflexivity.
  - rewrite drop_while_app_some by exact E. apply strip_right_app_all, H2.
Qed.
Lemma strip_mid a c b : is_space c = false -> strip (a ++ [c] ++ b) = drop_while is_space a ++ [c] ++ (if forallb is_space b then [] else strip_right is_space b).
Proof.
  intros Hc. unfold strip, strip_left.
  assert (E : drop_while is_space (a ++ [c] ++ b) = drop_while is_space a ++ [c] ++ b).
  { destruct (forallb is_space a) eqn:E.
    - rewrite drop_while_app_all, (drop_while_all _ a) by exact E. cbn. rewrite Hc. reflexivity.
    - apply drop_while_app_some, E. }
  rewrite E. destruct (forallb is_space b) eqn:Eb.
  - rewrite app_assoc, strip_right_app_all by exact Eb. rewrite strip_right_app_some by (cbn; rewrite Hc; reflexivity).
    f_equal. unfold strip_right. cbn. rewrite Hc. reflexivity.
  - rewrite app_assoc, strip_right_app_some, <- app_assoc by exact Eb. reflexivity.
Qed.
Lemma collapse_mid a : forall r c b, label_blank c = false -> collapse r (a ++ [c] ++ b) = collapse r a ++ [c] ++ collapse false b.
Proof.
  induction a as [|d a IH]; intros r c b Hc; cbn [app collapse].
  - rewrite Hc. reflexivity.
  - destruct (label_blank d).
    + rewrite <- app_assoc. f_equal. apply IH, Hc.
    + cbn [app]. f_equal. apply IH, Hc.
Qed.
Lemma translate_app t a b : translate t (a ++ b) = translate t a ++ translate t b.
Proof. apply flat_map_app. Qed.
Lemma space_letter c : (33 <= c <= 126)%N -> is_space c = false.
Proof. intros H. unfold is_space, in_range. lia. Qed.
Lemma blank_letter c : (33 <= c)%N -> label_blank c = false.
Proof. intros H. unfold label_blank. lia. Qed.

Lemma xlat_ascii c : (c < 128)%N -> assoc_N c XLAT = if in_range 65 90 c then Some [(c + 32)%N] else None.
Proof.
  intros H. assert (G : below 128 (fun c => match assoc_N c XLAT with Some v => in_range 65 90 c && str_eqb v [(c + 32)%N] | None => negb (in_range 65 90 c) end) = true) by (vm_compute; reflexivity).
  pose proof (below_spec _ _ G c H) as X. cbn beta in X. destruct (assoc_N c XLAT) as [v|].
  - apply andb_prop in X as [-> X]. apply str_eqb_eq in X. congruence.
  - destruct (in_range 65 90 c); [discriminate|reflexivity].
Qed.

Lemma key_same a b : same_label a b -> normalize_reference (in_brackets a) = normalize_reference (in_brackets b).
Proof.
  intros H. rewrite !key_eq. induction H as [a|a b H IH|a b c H1 IH1 H2 IH2|a c b Hc|a w w' b N1 N2 B1 B2|a w w' B1 B2].
  - reflexivity.
  - congruence.
  - congruence.
  - rewrite !strip_mid, !collapse_mid by (try apply space_letter; try apply blank_letter; lia). rewrite !translate_app. f_equal. f_equal.
    cbn [translate flat_map]. rewrite !xlat_ascii by lia. unfold in_range.
    replace ((65 <=? c)%N && (c <=? 90)%N) with true by lia. replace ((65 <=? c + 32)%N && (c + 32 <=? 90)%N) with false by lia. reflexivity.
  - rewrite (strip_collapse_inner a w w' b) by assumption. reflexivity.
  - rewrite strip_outer by assumption. reflexivity.
Qed.

(** Properties of the table, by computation *)
Lemma assoc_N_In {A} k (l : list (N * A)) v : assoc_N k l = Some v -> In (k, v) l.
Proof.
  unfold assoc_N. destruct (find _ l) as [p|] eqn:E; [|discriminate]. intros H. injection H as <-.
  apply find_some in E as [E1 E2]. apply N.eqb_eq in E2. subst k. destruct p. exact E1.
Qed.
Lemma xlat_keys c v : assoc_N c XLAT = Some v ->
  is_space c = false /\ v <> [] /\ forall x, In x v -> is_space x = false /\ label_blank x = false /\ assoc_N x XLAT = None.
Proof.
  intros H. assert (G : forallb (fun p => negb (is_space (fst p)) && negb (is_nil (snd p)) &&
      forallb (fun x => negb (is_space x) && negb (label_blank x) && match assoc_N x XLAT with None => true | _ => false end) (snd p)) XLAT = true) by (vm_compute; reflexivity).
  apply assoc_N_In in H. rewrite forallb_forall in G. apply G in H. clear G. cbn [fst snd] in H.
  rename H into E1.
  apply andb_prop in E1 as [E1 E3]. apply andb_prop in E1 as [E1 E4]. split; [destruct (is_space c); [discriminate|reflexivity]|].
  split; [destruct v; [discriminate|congruence]|]. rewrite forallb_forall in E3. intros x Hx. apply E3 in Hx.
  apply andb_prop in Hx as [Hx Hx3]. apply andb_prop in Hx as [Hx1 Hx2]. split; [destruct (is_space x); [discriminate|reflexivity]|].
  split; [destruct (label_blank x); [discriminate|reflexivity]|]. destruct (assoc_N x XLAT); [discriminate|reflexivity].
Qed.
Definition xlat1 (c : N) : str := match assoc_N c XLAT with Some v => v | None => [c] end.
Lemma xlat1_fixed c x : In x (xlat1 c) -> xlat1 x = [x].
Proof.
  unfold xlat1 at 1. destruct (assoc_N c XLAT) as [v|] eqn:E.
  - intros H. apply xlat_keys in E as (_ & _ & E). apply E in H as (_ & _ & H). unfold xlat1. rewrite H. reflexivity.
  - intros [<-|[]]. unfold xlat1. rewrite E. reflexivity.
Qed.
Lemma xlat1_nonempty c : xlat1 c <> [].
Proof. unfold xlat1. destruct (assoc_N c XLAT) as [v|] eqn:E; [apply xlat_keys in E; tauto|congruence]. Qed.
Lemma xlat1_space c x : In x (xlat1 c) -> is_space x = is_space c.
Proof.
  unfold xlat1. destruct (assoc_N c XLAT) as [v|] eqn:E; [|intros [<-|[]]; reflexivity].
  apply xlat_keys in E as (E1 & _ & E2). intros H. apply E2 in H as (H & _). congruence.
Qed.
Lemma xlat1_blank c : label_blank c = true -> xlat1 c = [c].
Proof.
  intros H. unfold xlat1. destruct (assoc_N c XLAT) as [v|] eqn:E; [|reflexivity].
  apply xlat_keys in E as (E1 & _). unfold label_blank in H. unfold is_space, in_range in E1. lia.
Qed.
Lemma xlat1_not_blank c x : label_blank c = false -> In x (xlat1 c) -> label_blank x = false.
Proof.
  unfold xlat1. destruct (assoc_N c XLAT) as [v|] eqn:E; [|intros ? [<-|[]]; assumption].
  apply xlat_keys in E as (E1 & _ & E2). intros _ H. apply E2 in H. tauto.
Qed.
Lemma translate_twice s : translate XLAT (translate XLAT s) = translate XLAT s.
Proof.
  change (translate XLAT) with (flat_map xlat1). apply flat_map_id. intros x Hx. apply in_flat_map in Hx as (c & _ & Hx).
  eapply xlat1_fixed, Hx.
Qed.

Lemma collapse_plain v : (forall x, In x v -> label_blank x = false) -> forall r s, v <> [] -> collapse r (v ++ s) = v ++ collapse false s.
Proof.
  induction v as [|x v IH]; intros H r s Hn; [congruence|]. cbn [app collapse]. rewrite (H x) by (left; reflexivity).
  destruct v as [|y v]; [reflexivity|]. cbn [app]. f_equal. apply (IH (fun z Hz => H z (or_intror Hz))). congruence.
Qed.
Lemma collapse_translate s : forall r, collapse r (translate XLAT s) = translate XLAT (collapse r s).
Proof.
  change (translate XLAT) with (flat_map xlat1). induction s as [|c s IH]; intros r; [reflexivity|]. cbn [flat_map collapse].
  destruct (label_blank c) eqn:E.
  - rewrite xlat1_blank by exact E. cbn [app collapse]. rewrite E, IH, flat_map_app. f_equal. destruct r; reflexivity.
  - rewrite collapse_plain; [|intros x; apply xlat1_not_blank, E|apply xlat1_nonempty]. cbn [flat_map]. rewrite IH. reflexivity.
Qed.
Lemma collapse_twice s : forall r, collapse r (collapse r s) = collapse r s.
Proof.
  induction s as [|c s IH]; intros r; [reflexivity|]. cbn [collapse]. destruct (label_blank c) eqn:E.
  - destruct r; cbn [app]; [apply IH|]. cbn [collapse]. change (label_blank 32) with true. cbn [app]. rewrite IH. reflexivity.
  - cbn [collapse]. rewrite E, IH. reflexivity.
Qed.

(** strip does nothing *)
Definition stripped (s : str) : Prop :=
  (match s with c :: _ => is_space c = false | [] => True end) /\
  (match rev s with c :: _ => is_space c = false | [] => True end).
Lemma stripped_strip s : stripped s -> strip s = s.
Proof.
  intros [H1 H2]. unfold strip, strip_left, strip_right.
  assert (E : drop_while is_space s = s) by (destruct s; cbn; [reflexivity|rewrite H1; reflexivity]). rewrite E.
  assert (E' : drop_while is_space (rev s) = rev s) by (destruct (rev s); cbn; [reflexivity|rewrite H2; reflexivity]).
  rewrite E', rev_involutive. reflexivity.
Qed.
Lemma drop_while_suffix {A} (f : A -> bool) s : exists p, s = p ++ drop_while f s.
Proof. exists (take_while f s). symmetry. apply take_drop_while. Qed.
Lemma strip_stripped s : stripped (strip s).
Proof.
  unfold strip, strip_left, strip_right, stripped. rewrite rev_involutive. split.
  - pose proof (drop_while_suffix is_space (rev (drop_while is_space s))) as [p Hp]. apply (f_equal (@rev N)) in Hp.
    rewrite rev_involutive, rev_app_distr in Hp. set (t := rev (drop_while is_space (rev (drop_while is_space s)))) in *.
    destruct t as [|c t]; [exact I|]. eapply drop_while_head, Hp.
  - destruct (drop_while is_space (rev _)) eqn:E; [exact I|]. eapply drop_while_head, E.
Qed.
(** the first and last characters survive *)
Lemma collapse_head s : (match s with c :: _ => is_space c = false | [] => True end) ->
  match collapse false s with c :: _ => is_space c = false | [] => True end.
Proof.
  destruct s as [|c s]; [auto|]. intros H. cbn. replace (label_blank c) with false; [exact H|].
  unfold is_space, in_range in H. unfold label_blank. lia.
Qed.
Lemma collapse_last s : forall r, (match rev s with c :: _ => is_space c = false | [] => True end) ->
  match rev (collapse r s) with c :: _ => is_space c = false | [] => True end.
Proof.
  intros r H. destruct (rev s) as [|c l] eqn:E.
  - rewrite <- (rev_involutive s), E. exact I.
  - rewrite <- (rev_involutive s), E. cbn [rev]. rewrite <- (app_nil_r (rev l ++ [c])), <- app_assoc.
    rewrite collapse_mid by (unfold is_space, in_range in H; unfold label_blank; lia).
    cbn [collapse]. rewrite app_nil_r, rev_app_distr. cbn. exact H.
Qed.
Lemma collapse_stripped s : stripped s -> stripped (collapse false s).
Proof. intros [H1 H2]. split; [apply collapse_head, H1|apply collapse_last, H2]. Qed.
Lemma translate_stripped s : stripped s -> stripped (translate XLAT s).
Proof.
  intros [H1 H2]. change (translate XLAT) with (flat_map xlat1). split.
  - destruct s as [|c s]; [exact I|]. cbn. destruct (xlat1 c) as [|x v] eqn:E; [exfalso; eapply xlat1_nonempty, E|].
    cbn. rewrite (xlat1_space c); [exact H1|]. rewrite E. left. reflexivity.
  - destruct (rev s) as [|c l] eqn:E; [rewrite <- (rev_involutive s), E; exact I|].
    rewrite <- (rev_involutive s), E. cbn [rev]. rewrite flat_map_app, rev_app_distr. cbn [flat_map]. rewrite app_nil_r.
    destruct (rev (xlat1 c)) as [|x v] eqn:Ex.
    + exfalso. apply (xlat1_nonempty c). rewrite <- (rev_involutive (xlat1 c)), Ex. reflexivity.
    + cbn. rewrite (xlat1_space c); [exact H2|]. apply in_rev. rewrite Ex. left. reflexivity.
Qed.

Lemma key_stable l : normalize_reference (in_brackets (normalize_reference (in_brackets l))) = normalize_reference (in_brackets l).
Proof.
  rewrite (key_eq l), key_eq. set (t := collapse false (strip l)).
  assert (Ht : stripped t) by apply collapse_stripped, strip_stripped.
  rewrite stripped_strip by apply translate_stripped, Ht. rewrite collapse_translate, translate_twice.
  unfold t. rewrite collapse_twice. reflexivity.
Qed.

Lemma key_visible l c : In c l -> is_space c = false -> normalize_reference (in_brackets l) <> [].
Proof.
  intros Hin Hc. rewrite key_eq. apply in_split in Hin as (a & b & ->). change (c :: b) with ([c] ++ b).
  rewrite strip_mid, collapse_mid by (auto; unfold is_space, in_range in Hc; unfold label_blank; lia).
  rewrite translate_app. intros H. apply app_eq_nil in H as [_ H]. rewrite translate_app in H. apply app_eq_nil in H as [H _].
  apply (xlat1_nonempty c). cbn [translate flat_map] in H. rewrite app_nil_r in H. exact H.
Qed.

Lemma key_ascii_words l : forallb (in_range 33 126) l = true -> normalize_reference (in_brackets l) = map ascii_lower l.
Proof.
  intros H. rewrite key_eq. rewrite forallb_forall in H.
  assert (Hs : forall s, (forall c, In c s -> (33 <= c <= 126)%N) -> collapse false s = s).
  { induction s as [|c s IH]; intros Hs; [reflexivity|]. cbn. rewrite blank_letter by (specialize (Hs c (or_introl eq_refl)); lia).
    rewrite IH; [reflexivity|]. intros x Hx. apply Hs. right. exact Hx. }
  assert (Hl : forall c, In c l -> (33 <= c <= 126)%N) by (intros c Hc; apply H in Hc; unfold in_range in Hc; lia).
  rewrite stripped_strip.
  - rewrite Hs by exact Hl. clear H Hs. induction l as [|c l IH]; [reflexivity|]. cbn [translate flat_map map].
    rewrite xlat_ascii by (specialize (Hl c (or_introl eq_refl)); lia). unfold ascii_lower at 1.
    change (translate XLAT) with (flat_map xlat1) in IH. change (flat_map _ l) with (flat_map xlat1 l). rewrite IH by (intros x Hx; apply Hl; right; exact Hx).
    destruct (in_range 65 90 c); reflexivity.
  - split.
    + destruct l as [|c l]; [exact I|]. apply space_letter, Hl. left. reflexivity.
    + destruct (rev l) as [|c r] eqn:E; [exact I|]. apply space_letter, Hl. apply in_rev. rewrite E. left. reflexivity.
Qed.
