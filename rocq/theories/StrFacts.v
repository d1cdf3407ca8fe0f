(** * Facts about the string functions of common.py *)
From Verif Require Import Base Regex Entities Common RegexFacts.
From Coq Require Import ZifyBool ZifyNat ZifyN.

(** unfold a membership test of a character class *)
Ltac cm_unfold :=
  unfold cmatch; cbn [cs_neg cs_icase cs_items existsb item_match];
  rewrite ?xorb_false_l, ?xorb_true_l; unfold in_range.
Ltac cm_unfold_in H :=
  unfold cmatch in H; cbn [cs_neg cs_icase cs_items existsb item_match] in H;
  rewrite ?xorb_false_l, ?xorb_true_l in H; unfold in_range in H.

Lemma str_eqb_eq a b : str_eqb a b = true <-> a = b.
Proof.
  revert b. induction a as [|x a IH]; destruct b as [|y b]; cbn; try (split; congruence).
  rewrite andb_true_iff, N.eqb_eq, IH. split; [intros [-> ->]; reflexivity|intros H; injection H as -> ->; auto].
Qed.
Lemma str_eqb_refl a : str_eqb a a = true.
Proof. apply str_eqb_eq. reflexivity. Qed.
Lemma str_eqb_neq a b : str_eqb a b = false <-> a <> b.
Proof. rewrite <- str_eqb_eq. destruct (str_eqb a b); split; congruence. Qed.

(** ** Substitution of single characters *)
Lemma sub_loop_chr cs f g :
  (forall c a, cmatch cs c = true -> f (RM [] [c] a []) = g c) ->
  forall s n prev, length s < n ->
  sub_loop n (RChr cs) f prev s = flat_map (fun c => if cmatch cs c then g c else [c]) s.
Proof.
  intros Hf. induction s as [|c s IH]; intros n prev Hn; (destruct n as [|n]; [cbn in Hn; lia|]);
    cbn [sub_loop]; rewrite match_at_chr; [reflexivity|].
  cbn in Hn. cbn [flat_map].
  destruct (cmatch cs c) eqn:E.
  - rewrite Hf by exact E. cbn [is_nil]. rewrite IH by lia. reflexivity.
  - rewrite IH by lia. reflexivity.
Qed.
Lemma re_sub_chr cs f g s :
  (forall c a, cmatch cs c = true -> f (RM [] [c] a []) = g c) ->
  re_sub (RChr cs) f s = flat_map (fun c => if cmatch cs c then g c else [c]) s.
Proof. intros H. apply sub_loop_chr; auto. Qed.

Lemma re_test_chr cs s : re_test (RChr cs) s = existsb (cmatch cs) s.
Proof.
  unfold re_test, re_search. generalize (@None N) at 1. generalize (@nil N) at 1.
  induction s as [|c s IH]; intros b p; cbn [search_from]; rewrite match_at_chr; [reflexivity|].
  cbn [existsb]. destruct (cmatch cs c); [reflexivity|]. apply IH.
Qed.

Lemma flat_map_id {A} (f : A -> list A) l : (forall x, In x l -> f x = [x]) -> flat_map f l = l.
Proof.
  induction l as [|x l IH]; cbn; intros H; [reflexivity|].
  rewrite (H x), IH by auto. reflexivity.
Qed.

(** ** escape_xml *)
Definition esc_char (c : N) : str :=
  if N.eqb c 38 then u "&amp;"
  else if N.eqb c 60 then u "&lt;"
  else if N.eqb c 62 then u "&gt;"
  else if N.eqb c 34 then u "&quot;"
  else [c].

Lemma xml_special_cm c :
  cmatch (CS false false [CRange 38 38; CRange 60 60; CRange 62 62; CRange 34 34]) c
  = (N.eqb c 38 || N.eqb c 60 || N.eqb c 62 || N.eqb c 34).
Proof. cm_unfold. lia. Qed.

Lemma escape_xml_flat_map s : escape_xml s = flat_map esc_char s.
Proof.
  unfold escape_xml, reXmlSpecial.
  assert (Hs : flat_map (fun c => if cmatch (CS false false [CRange 38 38; CRange 60 60; CRange 62 62; CRange 34 34]) c
                               then esc_char c else [c]) s = flat_map esc_char s).
  { apply flat_map_ext. intros c. rewrite xml_special_cm. unfold esc_char.
    destruct (N.eqb c 38), (N.eqb c 60), (N.eqb c 62), (N.eqb c 34); reflexivity. }
  destruct (re_test _ s) eqn:E.
  - rewrite (re_sub_chr _ _ esc_char); [exact Hs|].
    intros c a Hc. rewrite xml_special_cm in Hc. cbn [rm_group replace_unsafe_char]. unfold esc_char, assoc_N, unsafe_map.
    cbn [find fst snd]. rewrite !(N.eqb_sym _ c).
    destruct (N.eqb c 38) eqn:E1; [reflexivity|]. destruct (N.eqb c 60) eqn:E2; [reflexivity|].
    destruct (N.eqb c 62) eqn:E3; [reflexivity|]. destruct (N.eqb c 34) eqn:E4; [reflexivity|]. discriminate.
  - rewrite <- Hs. rewrite re_test_chr in E. symmetry. apply flat_map_id. intros x Hx.
    destruct (cmatch _ x) eqn:E2; [|reflexivity].
    assert (existsb (cmatch (CS false false [CRange 38 38; CRange 60 60; CRange 62 62; CRange 34 34])) s = true)
      by (apply existsb_exists; eauto). congruence.
Qed.
Lemma escape_xml_app a b : escape_xml (a ++ b) = escape_xml a ++ escape_xml b.
Proof. rewrite !escape_xml_flat_map. apply flat_map_app. Qed.
