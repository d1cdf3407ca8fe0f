(** * Linked nodes: C09, C08 *)
From Verif Require Import Base Regex Node RegexFacts StrFacts NodeHeap SpecHeap.
From Coq Require Import ZifyBool ZifyNat.

Lemma upd_same h a f : upd h a f a = f (h a).
Proof. unfold upd. rewrite Nat.eqb_refl. reflexivity. Qed.
Lemma upd_other h a f x : x <> a -> upd h a f x = h x.
Proof. intros H. unfold upd. destruct (Nat.eqb_spec x a); [contradiction|reflexivity]. Qed.
Lemma last_opt_snoc' {A} (l : list A) x : last_opt (l ++ [x]) = Some x.
Proof. induction l as [|y l IH]; [reflexivity|]. cbn [app]. destruct (l ++ [x]) eqn:E; [destruct l; discriminate|]. exact IH. Qed.
Lemma last_opt_app' {A} (l : list A) x l2 : last_opt (l ++ x :: l2) = last_opt (x :: l2).
Proof. induction l as [|y l IH]; [reflexivity|]. cbn [app]. destruct (l ++ x :: l2) eqn:E; [destruct l; discriminate|]. exact IH. Qed.
Lemma last_opt_split {A} (l : list A) x : last_opt l = Some x -> exists l', l = l' ++ [x].
Proof. destruct l as [|y l _] using rev_ind; [discriminate|]. rewrite last_opt_snoc'. intros H. injection H as ->. exists l. reflexivity. Qed.
Lemma last_opt_nil {A} (l : list A) : last_opt l = None -> l = [].
Proof. destruct l as [|y l _] using rev_ind; [reflexivity|]. rewrite last_opt_snoc'. discriminate. Qed.
Lemma hd_split {A} (l : list A) x : hd_error l = Some x -> exists l', l = x :: l'.
Proof. destruct l as [|y l]; [discriminate|]. intros H. injection H as ->. exists l. reflexivity. Qed.
Lemma hd_app_cons {A} (l1 : list A) x l2 : hd_error (l1 ++ x :: l2) = match l1 with [] => Some x | y :: _ => Some y end.
Proof. destruct l1; reflexivity. Qed.

(** ** The difference between a heap with [c] among the children [l1 ++ l2] of [a] and one without *)
Definition is_opt (o : option addr) (x : addr) : bool := match o with Some y => Nat.eqb x y | None => false end.
Record splice (h h' : heap) (a : addr) (l1 : list addr) (c : addr) (l2 : list addr) : Prop := {
  sp_data : forall x, c_data (h' x) = c_data (h x);
  sp_first : forall x, c_first (h' x) = if Nat.eqb x a then hd_error (l1 ++ c :: l2) else c_first (h x);
  sp_last : forall x, c_last (h' x) = if Nat.eqb x a then last_opt (l1 ++ c :: l2) else c_last (h x);
  sp_parent : forall x, c_parent (h' x) = if Nat.eqb x c then Some a else c_parent (h x);
  sp_prv : forall x, c_prv (h' x) = if Nat.eqb x c then last_opt l1 else if is_opt (hd_error l2) x then Some c else c_prv (h x);
  sp_nxt : forall x, c_nxt (h' x) = if Nat.eqb x c then hd_error l2 else if is_opt (last_opt l1) x then Some c else c_nxt (h x) }.

(** The children lists with [c] put in, the others as they are *)
Definition with_kids (k : kids_map) (a : addr) (l : list addr) : kids_map := fun x => if Nat.eqb x a then l else k x.

Section Lists.
  Context {A : Type}.
  (** two ways to split a list with an element in the middle *)
  Lemma split_two (l1 : list A) c l2 m1 x m2 : l1 ++ c :: l2 = m1 ++ x :: m2 ->
    (exists r, l1 = m1 ++ x :: r /\ m2 = r ++ c :: l2) \/ (m1 = l1 /\ x = c /\ m2 = l2) \/ (exists r, m1 = l1 ++ c :: r /\ l2 = r ++ x :: m2).
  Proof.
    revert m1. induction l1 as [|y l1 IH]; intros [|z m1] E; cbn [app] in E; injection E as E1 E2.
    - subst. right. left. auto.
    - subst. right. right. exists m1. auto.
    - subst. left. exists l1. auto.
    - subst. destruct (IH _ E2) as [(r & -> & ->)|[(-> & -> & ->)|(r & -> & ->)]]; [left; exists r|right; left|right; right; exists r]; auto.
  Qed.
End Lists.

Lemma splice_links h h' k a l1 c l2 : links h k -> splice h h' a l1 c l2 -> k a = l1 ++ l2 -> a <> c -> (forall x, ~ In c (k x)) ->
  links h' (with_kids k a (l1 ++ c :: l2)).
Proof.
  intros [L1 L2 L3 L4 L5 L6] [D1 D2 D3 D4 D5 D6] Ek Hac Hc. unfold with_kids.
  assert (Nd : NoDup (l1 ++ c :: l2)). { apply NoDup_Add with (a := c) (l := l1 ++ l2); [apply Add_app|]. rewrite <- Ek. auto. }
  assert (Hhd : forall z r, l2 = z :: r -> In z (k a)) by (intros z r ->; rewrite Ek; apply in_or_app; right; left; reflexivity).
  assert (Hla : forall y r, l1 = r ++ [y] -> In y (k a)) by (intros y r ->; rewrite Ek; apply in_or_app; left; apply in_or_app; right; left; reflexivity).
  assert (Hone : forall x b, In x (k a) -> In x (k b) -> b = a).
  { intros x b Ha Hb. apply in_split in Ha as (u & v & Ea). apply in_split in Hb as (u' & v' & Eb). apply L3 in Ea as (Ea & _). apply L3 in Eb as (Eb & _). congruence. }
  assert (Hhd' : forall x, is_opt (hd_error l2) x = true -> exists r, l2 = x :: r) by (intros x X; destruct l2 as [|z r]; [discriminate|]; cbn in X; apply Nat.eqb_eq in X as ->; exists r; reflexivity).
  assert (Hla' : forall x, is_opt (last_opt l1) x = true -> exists r, l1 = r ++ [x]) by (intros x X; destruct l1 as [|z r _] using rev_ind; [discriminate|]; rewrite last_opt_snoc' in X; cbn in X; apply Nat.eqb_eq in X as ->; exists r; reflexivity).
  constructor.
  - intros b. rewrite D2. destruct (Nat.eqb_spec b a); [reflexivity|apply L1].
  - intros b. rewrite D3. destruct (Nat.eqb_spec b a); [reflexivity|apply L2].
  - intros b m1 x m2 E. rewrite D4, D5, D6. destruct (Nat.eqb_spec b a) as [->|Hb].
    + apply split_two in E as [(r & -> & ->)|[(-> & -> & ->)|(r & -> & ->)]].
      * assert (x <> c). { intros ->. apply NoDup_remove_2 in Nd. apply Nd. apply in_or_app. left. apply in_or_app. right. left. reflexivity. }
        destruct (Nat.eqb_spec x c); [contradiction|]. destruct (L3 a m1 x (r ++ l2)) as (P1 & P2 & P3); [rewrite Ek, <- app_assoc; reflexivity|].
        split; [exact P1|]. split.
        -- destruct (is_opt (hd_error l2) x) eqn:Ei; [|exact P2]. apply Hhd' in Ei as (r' & ->). exfalso. rewrite <- app_assoc in Nd. cbn [app] in Nd. apply NoDup_remove_2 in Nd. apply Nd. apply in_or_app. right. apply in_or_app. right. right. left. reflexivity.
        -- destruct (is_opt (last_opt (m1 ++ x :: r)) x) eqn:Ei.
           ++ apply Hla' in Ei as (r' & Er). destruct r as [|z r _] using rev_ind; [reflexivity|]. exfalso. assert (z = x) by (rewrite app_comm_cons, app_assoc in Er; apply app_inj_tail in Er as [_ Er]; exact Er). subst z.
              rewrite <- app_assoc in Nd. cbn [app] in Nd. apply NoDup_remove_2 in Nd. apply Nd. apply in_or_app. right. apply in_or_app. left. apply in_or_app. right. left. reflexivity.
           ++ rewrite P3. destruct r as [|z r]; [|reflexivity]. exfalso. rewrite last_opt_snoc' in Ei. cbn in Ei. rewrite Nat.eqb_refl in Ei. discriminate.
      * rewrite Nat.eqb_refl. auto.
      * assert (x <> c). { intros ->. apply NoDup_remove_2 in Nd. apply Nd. apply in_or_app. right. apply in_or_app. right. left. reflexivity. }
        destruct (Nat.eqb_spec x c); [contradiction|]. destruct (L3 a (l1 ++ r) x m2) as (P1 & P2 & P3); [rewrite Ek, <- app_assoc; reflexivity|].
        split; [exact P1|]. split.
        -- destruct (is_opt (hd_error (r ++ x :: m2)) x) eqn:Ei.
           ++ apply Hhd' in Ei as (r' & Er). destruct r as [|z r]; [rewrite last_opt_app'; reflexivity|]. exfalso. injection Er as -> _. replace (l1 ++ c :: (x :: r) ++ x :: m2) with ((l1 ++ [c]) ++ x :: (r ++ x :: m2)) in Nd by (rewrite <- app_assoc; reflexivity). apply NoDup_remove_2 in Nd. apply Nd. apply in_or_app. right. apply in_or_app. right. left. reflexivity.
           ++ rewrite P2. destruct r as [|z r]; [exfalso; cbn in Ei; rewrite Nat.eqb_refl in Ei; discriminate|]. rewrite !last_opt_app'. reflexivity.
        -- destruct (is_opt (last_opt l1) x) eqn:Ei; [|exact P3]. apply Hla' in Ei as (r' & ->). exfalso. rewrite <- app_assoc in Nd. cbn [app] in Nd. apply NoDup_remove_2 in Nd. apply Nd. apply in_or_app. right. right. apply in_or_app. right. left. reflexivity.
    + assert (Hx : In x (k b)) by (rewrite E; apply in_or_app; right; left; reflexivity). destruct (L3 b m1 x m2 E) as (P1 & P2 & P3).
      destruct (Nat.eqb_spec x c) as [->|]; [destruct (Hc _ Hx)|]. split; [exact P1|]. split.
      * destruct (is_opt (hd_error l2) x) eqn:Ei; [|exact P2]. apply Hhd' in Ei as (r' & Er). destruct Hb. apply (Hone x b (Hhd x r' Er) Hx).
      * destruct (is_opt (last_opt l1) x) eqn:Ei; [|exact P3]. apply Hla' in Ei as (r' & Er). destruct Hb. apply (Hone x b (Hla x r' Er) Hx).
  - intros x b. rewrite D4. destruct (Nat.eqb_spec x c) as [->|Hx].
    + intros E. injection E as <-. rewrite Nat.eqb_refl. apply in_or_app. right. left. reflexivity.
    + intros E. apply L4 in E. destruct (Nat.eqb_spec b a) as [->|]; [|exact E]. rewrite Ek in E. apply in_or_app. apply in_app_or in E as [E|E]; [left; exact E|right; right; exact E].
  - intros x. rewrite D4, D5, D6. destruct (Nat.eqb_spec x c); [discriminate|]. intros E. destruct (L5 x E) as [P1 P2]. split.
    + destruct (is_opt (hd_error l2) x) eqn:Ei; [|exact P1]. apply Hhd' in Ei as (r' & Er). pose proof (Hhd x r' Er) as Hx. apply in_split in Hx as (u & v & Eu). apply L3 in Eu as (Eu & _). congruence.
    + destruct (is_opt (last_opt l1) x) eqn:Ei; [|exact P2]. apply Hla' in Ei as (r' & Er). pose proof (Hla x r' Er) as Hx. apply in_split in Hx as (u & v & Eu). apply L3 in Eu as (Eu & _). congruence.
  - intros b. destruct (Nat.eqb_spec b a); [exact Nd|apply L6].
Qed.

(** ** Taking a node out *)
Record removed (h h' : heap) (a : addr) (l1 : list addr) (c : addr) (l2 : list addr) : Prop := {
  rm_data : forall x, c_data (h' x) = c_data (h x);
  rm_first : forall x, c_first (h' x) = if Nat.eqb x a then hd_error (l1 ++ l2) else c_first (h x);
  rm_last : forall x, c_last (h' x) = if Nat.eqb x a then last_opt (l1 ++ l2) else c_last (h x);
  rm_parent : forall x, c_parent (h' x) = if Nat.eqb x c then None else c_parent (h x);
  rm_prv : forall x, c_prv (h' x) = if Nat.eqb x c then None else if is_opt (hd_error l2) x then last_opt l1 else c_prv (h x);
  rm_nxt : forall x, c_nxt (h' x) = if Nat.eqb x c then None else if is_opt (last_opt l1) x then hd_error l2 else c_nxt (h x) }.
Lemma is_hd l x : is_opt (hd_error l) x = true -> exists r, l = x :: r.
Proof. intros X; destruct l as [|z r]; [discriminate|]; cbn in X; apply Nat.eqb_eq in X as ->; exists r; reflexivity. Qed.
Lemma is_last l x : is_opt (last_opt l) x = true -> exists r, l = r ++ [x].
Proof. intros X; destruct l as [|z r _] using rev_ind; [discriminate|]; rewrite last_opt_snoc' in X; cbn in X; apply Nat.eqb_eq in X as ->; exists r; reflexivity. Qed.
Lemma links_one h k x a b : links h k -> In x (k a) -> In x (k b) -> b = a.
Proof. intros [_ _ L3 _ _ _] Ha Hb. apply in_split in Ha as (u & v & Ea). apply in_split in Hb as (u' & v' & Eb). apply L3 in Ea as (Ea & _). apply L3 in Eb as (Eb & _). congruence. Qed.
Lemma nodup_mid {A} (l1 : list A) x l2 : NoDup (l1 ++ x :: l2) -> ~ In x l1 /\ ~ In x l2.
Proof. intros H. apply NoDup_remove_2 in H. split; intros X; apply H; apply in_or_app; auto. Qed.
Lemma removed_links h h' k a l1 c l2 : links h k -> removed h h' a l1 c l2 -> k a = l1 ++ c :: l2 -> links h' (with_kids k a (l1 ++ l2)).
Proof.
  intros L [D1 D2 D3 D4 D5 D6] Ek. pose proof L as [L1 L2 L3 L4 L5 L6]. unfold with_kids. pose proof (L6 a) as Nd. rewrite Ek in Nd. pose proof (NoDup_remove_1 _ _ _ Nd) as Nd'. destruct (nodup_mid _ _ _ Nd) as [Hc1 Hc2].
  assert (Hhd : forall z r, l2 = z :: r -> In z (k a)) by (intros z r ->; rewrite Ek; apply in_or_app; right; right; left; reflexivity).
  assert (Hla : forall y r, l1 = r ++ [y] -> In y (k a)) by (intros y r ->; rewrite Ek; apply in_or_app; left; apply in_or_app; right; left; reflexivity).
  assert (Hca : In c (k a)) by (rewrite Ek; apply in_or_app; right; left; reflexivity).
  constructor.
  - intros b. rewrite D2. destruct (Nat.eqb_spec b a); [reflexivity|apply L1].
  - intros b. rewrite D3. destruct (Nat.eqb_spec b a); [reflexivity|apply L2].
  - intros b m1 x m2 E. rewrite D4, D5, D6. destruct (Nat.eqb_spec b a) as [->|Hb].
    + assert (Hx : x <> c). { intros ->. assert (In c (l1 ++ l2)) by (rewrite E; apply in_or_app; right; left; reflexivity). apply in_app_or in H as [H|H]; contradiction. }
      destruct (Nat.eqb_spec x c); [contradiction|]. apply app_eq_app in E as (r & [[-> E]|[-> E]]).
      * (* l1 = m1 ++ r, x :: m2 = r ++ l2 *)
        destruct r as [|y r].
        -- cbn [app] in E. subst l2. rewrite app_nil_r in *. destruct (L3 a (m1 ++ [c]) x m2) as (P1 & P2 & P3); [rewrite Ek, <- app_assoc; reflexivity|]. split; [exact P1|]. cbn [hd_error is_opt]. rewrite Nat.eqb_refl. split; [reflexivity|].
           destruct (is_opt (last_opt m1) x) eqn:Ei; [|exact P3]. apply is_last in Ei as (r' & ->). exfalso. rewrite <- app_assoc in Nd'. cbn [app] in Nd'. apply nodup_mid in Nd' as [_ Nn]. apply Nn. left. reflexivity.
        -- injection E as -> ->. destruct (L3 a m1 y (r ++ c :: l2)) as (P1 & P2 & P3); [rewrite Ek, <- app_assoc; reflexivity|]. split; [exact P1|]. rewrite <- app_assoc in Nd'. cbn [app] in Nd'. apply nodup_mid in Nd' as [Nn Nn'].
           split.
           ++ destruct (is_opt (hd_error l2) y) eqn:Ei; [|exact P2]. apply is_hd in Ei as (r' & ->). exfalso. apply Nn'. apply in_or_app. right. left. reflexivity.
           ++ destruct (is_opt (last_opt (m1 ++ y :: r)) y) eqn:Ei.
              ** apply is_last in Ei as (r' & Er). destruct r as [|z r _] using rev_ind; [reflexivity|]. exfalso. assert (z = y) by (rewrite app_comm_cons, app_assoc in Er; apply app_inj_tail in Er as [_ Er]; exact Er). subst z. apply Nn'. apply in_or_app. left. apply in_or_app. right. left. reflexivity.
              ** rewrite P3. destruct r as [|z r]; [|reflexivity]. exfalso. rewrite last_opt_snoc' in Ei. cbn in Ei. rewrite Nat.eqb_refl in Ei. discriminate.
      * (* m1 = l1 ++ r, l2 = r ++ x :: m2 *)
        subst l2. destruct (L3 a (l1 ++ c :: r) x m2) as (P1 & P2 & P3); [rewrite Ek, <- app_assoc; reflexivity|]. split; [exact P1|]. rewrite app_assoc in Nd'. apply nodup_mid in Nd' as [Nn Nn']. split.
        -- destruct r as [|z r].
           ++ cbn [app hd_error is_opt]. rewrite Nat.eqb_refl, app_nil_r. reflexivity.
           ++ cbn [app hd_error is_opt]. destruct (Nat.eqb_spec x z) as [->|]; [exfalso; apply Nn; apply in_or_app; right; left; reflexivity|]. rewrite P2, !last_opt_app'. change (c :: z :: r) with ([c] ++ z :: r). rewrite last_opt_app'. reflexivity.
        -- destruct (is_opt (last_opt l1) x) eqn:Ei; [|exact P3]. apply is_last in Ei as (r' & ->). exfalso. apply Nn. apply in_or_app. left. apply in_or_app. right. left. reflexivity.
    + assert (Hx : In x (k b)) by (rewrite E; apply in_or_app; right; left; reflexivity). destruct (L3 b m1 x m2 E) as (P1 & P2 & P3).
      destruct (Nat.eqb_spec x c) as [->|]; [destruct Hb; apply (links_one h k c a b L Hca Hx)|]. split; [exact P1|]. split.
      * destruct (is_opt (hd_error l2) x) eqn:Ei; [|exact P2]. apply is_hd in Ei as (r' & Er). destruct Hb. apply (links_one h k x a b L (Hhd x r' Er) Hx).
      * destruct (is_opt (last_opt l1) x) eqn:Ei; [|exact P3]. apply is_last in Ei as (r' & Er). destruct Hb. apply (links_one h k x a b L (Hla x r' Er) Hx).
  - intros x b. rewrite D4. destruct (Nat.eqb_spec x c) as [->|Hx]; [discriminate|].
    intros E. apply L4 in E. destruct (Nat.eqb_spec b a) as [->|]; [|exact E]. rewrite Ek in E. apply in_or_app. apply in_app_or in E as [E|[E|E]]; [left; exact E|congruence|right; exact E].
  - intros x. rewrite D4, D5, D6. destruct (Nat.eqb_spec x c); [auto|]. intros E. destruct (L5 x E) as [P1 P2]. split.
    + destruct (is_opt (hd_error l2) x) eqn:Ei; [|exact P1]. apply is_hd in Ei as (r' & Er). pose proof (Hhd x r' Er) as Hx. apply in_split in Hx as (u & v & Eu). apply L3 in Eu as (Eu & _). congruence.
    + destruct (is_opt (last_opt l1) x) eqn:Ei; [|exact P2]. apply is_last in Ei as (r' & Er). pose proof (Hla x r' Er) as Hx. apply in_split in Hx as (u & v & Eu). apply L3 in Eu as (Eu & _). congruence.
  - intros b. destruct (Nat.eqb_spec b a); [exact Nd'|apply L6].
Qed.

(** case analysis on the addresses met in a heap expression *)
Ltac heap_cases := unfold upd; repeat (match goal with |- context [Nat.eqb ?x ?y] => destruct (Nat.eqb_spec x y); try subst end; cbn [c_data c_parent c_first c_last c_prv c_nxt set_c_data set_c_parent set_c_first set_c_last set_c_prv set_c_nxt] in *); try congruence; try reflexivity.

Lemma unlink_removed h k c a l1 l2 : links h k -> k a = l1 ++ c :: l2 -> a <> c -> (forall x, In x (k a) -> x <> a) -> removed h (unlink c h) a l1 c l2.
Proof.
  intros L Ek Hac Ha. pose proof L as [L1 L2 L3 L4 L5 L6]. destruct (L3 a l1 c l2 Ek) as (P1 & P2 & P3). pose proof (L6 a) as Nd. rewrite Ek in Nd. destruct (nodup_mid _ _ _ Nd) as [Hc1 Hc2].
  assert (Hy : forall y, last_opt l1 = Some y -> y <> c /\ y <> a /\ In y (k a)).
  { intros y E. apply last_opt_split in E as (r & ->). assert (X : In y (k a)) by (rewrite Ek; apply in_or_app; left; apply in_or_app; right; left; reflexivity). split; [intros ->; apply Hc1; apply in_or_app; right; left; reflexivity|]. split; [apply Ha, X|exact X]. }
  assert (Hz : forall z, hd_error l2 = Some z -> z <> c /\ z <> a /\ In z (k a)).
  { intros z E. apply hd_split in E as (r & ->). assert (X : In z (k a)) by (rewrite Ek; apply in_or_app; right; right; left; reflexivity). split; [intros ->; apply Hc2; left; reflexivity|]. split; [apply Ha, X|exact X]. }
  assert (Hyz : forall y z, last_opt l1 = Some y -> hd_error l2 = Some z -> y <> z).
  { intros y z E1 E2 ->. apply last_opt_split in E1 as (r & ->). apply hd_split in E2 as (r' & ->). rewrite <- app_assoc in Nd. cbn [app] in Nd. apply nodup_mid in Nd as [_ Nd]. apply Nd. right. left. reflexivity. }
  assert (F1 : c_first (h a) = hd_error (l1 ++ c :: l2)) by (rewrite <- Ek; apply L1). assert (F2 : c_last (h a) = last_opt (l1 ++ c :: l2)) by (rewrite <- Ek; apply L2).
  assert (G1 : hd_error (l1 ++ l2) = match last_opt l1 with None => hd_error l2 | Some _ => hd_error (l1 ++ c :: l2) end) by (destruct (last_opt l1) eqn:E; [apply last_opt_split in E as (r & ->); destruct r; reflexivity|apply last_opt_nil in E as ->; reflexivity]).
  assert (G2 : last_opt (l1 ++ l2) = match hd_error l2 with None => last_opt l1 | Some _ => last_opt (l1 ++ c :: l2) end).
  { destruct l2 as [|z r]; [cbn [hd_error]; rewrite app_nil_r; reflexivity|]. cbn [hd_error]. rewrite !last_opt_app'. reflexivity. }
  unfold unlink. rewrite P1, P2, P3. rewrite <- F1 in G1. rewrite <- F2 in G2. clear F1 F2 Ek Nd Hc1 Hc2.
  destruct (last_opt l1) as [y|] eqn:E1; destruct (hd_error l2) as [z|] eqn:E2; cbn [is_opt] in *;
    repeat match goal with H : forall y, Some _ = Some y -> _ |- _ => specialize (H _ eq_refl); destruct H as (? & ? & ?) | H : forall y z, Some _ = Some y -> Some _ = Some z -> _ |- _ => specialize (H _ _ eq_refl eq_refl) end;
    repeat (rewrite (upd_other h) by congruence); rewrite ?P1, ?P2, ?P3; constructor; rewrite ?E1, ?E2; intros x; rewrite ?E1, ?E2; cbn [is_opt]; heap_cases.
Qed.
Lemma links_ext h h' k k' : (forall x, h' x = h x) -> (forall x, k' x = k x) -> links h k -> links h' k'.
Proof.
  intros Hh Hk [L1 L2 L3 L4 L5 L6]. constructor; intros; rewrite ?Hh, ?Hk in *; eauto.
Qed.
Lemma take_out_none c l : ~ In c l -> take_out c l = l.
Proof. intros H. unfold take_out. induction l as [|x l IH]; [reflexivity|]. cbn [filter]. destruct (Nat.eqb_spec x c) as [->|]; [destruct H; left; reflexivity|]. cbn [negb]. f_equal. apply IH. intros X. apply H. right. exact X. Qed.
Lemma take_out_mid c l1 l2 : ~ In c l1 -> ~ In c l2 -> take_out c (l1 ++ c :: l2) = l1 ++ l2.
Proof. intros H1 H2. unfold take_out. rewrite filter_app. cbn [filter]. rewrite Nat.eqb_refl. cbn [negb]. f_equal; apply take_out_none; assumption. Qed.
Lemma take_out_in c l x : In x (take_out c l) <-> In x l /\ x <> c.
Proof. unfold take_out. rewrite filter_In. split; intros [H1 H2]; (split; [exact H1|]); [apply negb_true_iff, Nat.eqb_neq in H2; exact H2|apply negb_true_iff, Nat.eqb_neq; exact H2]. Qed.
Lemma forest_ne h k a x : forest h k -> In x (k a) -> x <> a.
Proof. intros [_ F] Hx ->. apply (F a). apply below_kid, Hx. Qed.

Lemma unlink_links h k c : forest h k -> links (unlink c h) (fun x => take_out c (k x)) /\ (forall x, c_data (unlink c h x) = c_data (h x)).
Proof.
  intros Hf. pose proof Hf as [L F]. destruct (c_parent (h c)) as [a|] eqn:Ep.
  - pose proof (lk_parent _ _ L _ _ Ep) as Hin. apply in_split in Hin as (l1 & l2 & Ek).
    assert (Hin : In c (k a)) by (rewrite Ek; apply in_or_app; right; left; reflexivity).
    assert (Hac : a <> c) by (intros ->; apply (F c); apply below_kid, Hin).
    pose proof (unlink_removed h k c a l1 l2 L Ek Hac (fun x Hx => forest_ne h k a x Hf Hx)) as R. split; [|apply R].
    apply (links_ext (unlink c h) _ (with_kids k a (l1 ++ l2))); [reflexivity| |apply (removed_links h _ k a l1 c l2 L R Ek)].
    intros x. unfold with_kids. pose proof (lk_nodup _ _ L a) as Nd. rewrite Ek in Nd. destruct (nodup_mid _ _ _ Nd) as [H1 H2].
    destruct (Nat.eqb_spec x a) as [->|Hx]; [rewrite Ek; apply take_out_mid; assumption|]. apply take_out_none. intros X. apply Hx. apply (links_one h k c a x L Hin X).
  - destruct (lk_root _ _ L c Ep) as [E1 E2].
    assert (Hh : forall x, unlink c h x = h x).
    { intros x. unfold unlink. rewrite E1, Ep, E2, Ep. unfold upd. destruct (Nat.eqb_spec x c) as [->|]; [|reflexivity]. destruct (h c) as [d p f l pv nx]. cbn in *. subst. reflexivity. }
    split; [|intros x; rewrite Hh; reflexivity]. apply (links_ext h _ k); [exact Hh| |exact L]. intros x. apply take_out_none. intros X. apply in_split in X as (l1 & l2 & Ek). apply (lk_kid _ _ L) in Ek as (Ek & _). congruence.
Qed.
(** ** No cycles *)
Lemma below_trans k a b c : below k a b -> below k b c -> below k a c.
Proof. intros H1 H2. induction H2 as [b c H|b c d H2 IH H]; [apply (below_step k a b c H1 H)|apply (below_step k a c d); auto]. Qed.
Lemma below_sub k k' a b : (forall x y, In y (k' x) -> In y (k x)) -> below k' a b -> below k a b.
Proof. intros H. induction 1 as [a b X|a b c _ IH X]; [apply below_kid; auto|apply (below_step k a b c); auto]. Qed.
Lemma below_new k k' a c x y : (forall x y, In y (k' x) -> In y (k x) \/ (x = a /\ y = c)) -> below k' x y ->
  below k x y \/ ((x = a \/ below k x a) /\ (y = c \/ below k c y)).
Proof.
  intros H. induction 1 as [x y X|x y z _ IH X].
  - apply H in X as [X|[-> ->]]; [left; apply below_kid, X|right; auto].
  - apply H in X as [X|[-> ->]].
    + destruct IH as [IH|[IH1 [->|IH2]]]; [left; apply (below_step k x y z); auto| |].
      * right. split; [exact IH1|]. right. apply below_kid, X.
      * right. split; [exact IH1|]. right. apply (below_step k c y z); auto.
    + right. destruct IH as [IH|[IH1 _]]; auto.
Qed.
Lemma acyclic_new k k' a c : (forall x, ~ below k x x) -> (forall x y, In y (k' x) -> In y (k x) \/ (x = a /\ y = c)) -> a <> c -> ~ below k c a -> forall x, ~ below k' x x.
Proof.
  intros F H Hac Hn x X. apply (below_new k k' a c) in X; [|exact H]. destruct X as [X|[[->|X1] [E|X2]]].
  - apply (F x X).
  - congruence.
  - auto.
  - subst. auto.
  - apply Hn. apply (below_trans k c x a X2 X1).
Qed.

(** ** Putting a node in *)
Lemma splice_op h h' k a l1 c l2 k' : forest h k -> a <> c -> ~ below k c a -> (let h0 := unlink c h in splice h0 h' a l1 c l2) -> take_out c (k a) = l1 ++ l2 ->
  (forall x, k' x = with_kids (fun x => take_out c (k x)) a (l1 ++ c :: l2) x) -> forest h' k' /\ (forall x, c_data (h' x) = c_data (h x)).
Proof.
  intros Hf Hac Hn Hs Ek Hk. cbv zeta in Hs. destruct (unlink_links h k c Hf) as [L D]. split; [split|].
  - apply (links_ext h' _ (with_kids (fun x => take_out c (k x)) a (l1 ++ c :: l2))); [reflexivity|exact Hk|]. apply (splice_links (unlink c h) h' _ a l1 c l2 L Hs Ek Hac).
    intros x X. apply take_out_in in X as [_ X]. congruence.
  - apply (acyclic_new k k' a c); [apply Hf| |exact Hac|exact Hn]. intros x y. rewrite Hk. unfold with_kids. destruct (Nat.eqb_spec x a) as [->|].
    + intros X. assert (X' : y = c \/ In y (take_out c (k a))). { rewrite Ek. apply in_app_or in X as [X|[X|X]]; [right; apply in_or_app; auto|auto|right; apply in_or_app; auto]. }
      destruct X' as [->|X']; [auto|left]. apply take_out_in in X'. tauto.
    + intros X. left. apply take_out_in in X. tauto.
  - intros x. rewrite (sp_data _ _ _ _ _ _ Hs). apply D.
Qed.
Lemma append_splice h k a c : links h k -> a <> c -> c_parent (h c) = None -> (forall x, In x (k a) -> x <> a /\ x <> c) ->
  splice h (let h1 := upd h c (set_c_parent (Some a)) in
    match c_last (h1 a) with
    | Some l => let h2 := upd h1 l (set_c_nxt (Some c)) in let h3 := upd h2 c (set_c_prv (c_last (h2 a))) in upd h3 a (set_c_last (Some c))
    | None => upd (upd h1 a (set_c_first (Some c))) a (set_c_last (Some c))
    end) a (k a) c [].
Proof.
  intros L Hac Hp Hk. cbv zeta. destruct (lk_root _ _ L c Hp) as [Q1 Q2]. rewrite !(upd_other h c) by congruence. pose proof (lk_last _ _ L a) as E. pose proof (lk_first _ _ L a) as E'.
  destruct (c_last (h a)) as [l|] eqn:El.
  - symmetry in E. destruct (Hk l) as [Hl1 Hl2]; [apply last_opt_split in E as (r & ->); apply in_or_app; right; left; reflexivity|].
    assert (Hhd : hd_error (k a ++ [c]) = hd_error (k a)) by (apply last_opt_split in E as (r & ->); destruct r; reflexivity).
    repeat (rewrite upd_other by congruence). constructor; intros x; rewrite ?Hhd, ?last_opt_snoc', ?E; cbn [is_opt hd_error]; heap_cases.
  - symmetry in E. apply last_opt_nil in E. rewrite E in *. constructor; intros x; cbn [app hd_error last_opt is_opt]; heap_cases.
Qed.
Theorem append_forest h k a c : forest h k -> op_allowed (OpAppend a c) k -> forest (append_child a c h) (op_kids (OpAppend a c) k) /\ (forall x, c_data (append_child a c h x) = c_data (h x)).
Proof.
  intros Hf [Hac Hn]. destruct (unlink_links h k c Hf) as [L D]. apply (splice_op h _ k a (take_out c (k a)) c []); [exact Hf|exact Hac|exact Hn| |symmetry; apply app_nil_r|].
  - apply (append_splice (unlink c h) _ a c L Hac).
    + destruct (c_parent (unlink c h c)) as [b|] eqn:E; [|reflexivity]. apply (lk_parent _ _ L) in E. apply take_out_in in E as [_ E]. congruence.
    + intros x X. apply take_out_in in X as [X1 X2]. split; [apply (forest_ne h k a x Hf X1)|exact X2].
  - intros x. unfold op_kids, with_kids. destruct (Nat.eqb_spec x a) as [->|]; [reflexivity|apply app_nil_r].
Qed.
Lemma prepend_splice h k a c : links h k -> a <> c -> c_parent (h c) = None -> (forall x, In x (k a) -> x <> a /\ x <> c) ->
  splice h (let h1 := upd h c (set_c_parent (Some a)) in
    match c_first (h1 a) with
    | Some f => let h2 := upd h1 f (set_c_prv (Some c)) in let h3 := upd h2 c (set_c_nxt (c_first (h2 a))) in upd h3 a (set_c_first (Some c))
    | None => upd (upd h1 a (set_c_first (Some c))) a (set_c_last (Some c))
    end) a [] c (k a).
Proof.
  intros L Hac Hp Hk. cbv zeta. destruct (lk_root _ _ L c Hp) as [Q1 Q2]. rewrite !(upd_other h c) by congruence. pose proof (lk_last _ _ L a) as E'. pose proof (lk_first _ _ L a) as E.
  destruct (c_first (h a)) as [l|] eqn:El.
  - symmetry in E. apply hd_split in E as (r & E). rewrite E in *. destruct (Hk l) as [Hl1 Hl2]; [left; reflexivity|].
    repeat (rewrite upd_other by congruence). constructor; intros x; cbn [app hd_error is_opt last_opt]; change (last_opt (l :: r)) with (match r with [] => Some l | _ => last_opt r end) in *; heap_cases.
  - symmetry in E. destruct (k a) as [|? ?] eqn:Ek; [|discriminate]. constructor; intros x; cbn [app hd_error last_opt is_opt]; heap_cases.
Qed.
Theorem prepend_forest h k a c : forest h k -> op_allowed (OpPrepend a c) k -> forest (prepend_child a c h) (op_kids (OpPrepend a c) k) /\ (forall x, c_data (prepend_child a c h x) = c_data (h x)).
Proof.
  intros Hf [Hac Hn]. destruct (unlink_links h k c Hf) as [L D]. apply (splice_op h _ k a [] c (take_out c (k a))); [exact Hf|exact Hac|exact Hn| |reflexivity|].
  - apply (prepend_splice (unlink c h) _ a c L Hac).
    + destruct (c_parent (unlink c h c)) as [b|] eqn:E; [|reflexivity]. apply (lk_parent _ _ L) in E. apply take_out_in in E as [_ E]. congruence.
    + intros x X. apply take_out_in in X as [X1 X2]. split; [apply (forest_ne h k a x Hf X1)|exact X2].
  - intros x. unfold op_kids, with_kids. destruct (Nat.eqb_spec x a) as [->|]; reflexivity.
Qed.
Lemma put_after_none s c l : ~ In s l -> put_after s c l = l.
Proof. intros H. unfold put_after. induction l as [|x l IH]; [reflexivity|]. cbn [flat_map]. destruct (Nat.eqb_spec x s) as [->|]; [destruct H; left; reflexivity|]. cbn [app]. f_equal. apply IH. intros X. apply H. right. exact X. Qed.
Lemma put_before_none s c l : ~ In s l -> put_before s c l = l.
Proof. intros H. unfold put_before. induction l as [|x l IH]; [reflexivity|]. cbn [flat_map]. destruct (Nat.eqb_spec x s) as [->|]; [destruct H; left; reflexivity|]. cbn [app]. f_equal. apply IH. intros X. apply H. right. exact X. Qed.
Lemma put_after_mid s c l1 l2 : ~ In s l1 -> ~ In s l2 -> put_after s c (l1 ++ s :: l2) = (l1 ++ [s]) ++ c :: l2.
Proof. intros H1 H2. unfold put_after. rewrite flat_map_app. cbn [flat_map]. rewrite Nat.eqb_refl, <- app_assoc. cbn [app]. f_equal; [apply (put_after_none s c l1 H1)|]. do 2 f_equal. apply (put_after_none s c l2 H2). Qed.
Lemma put_before_mid s c l1 l2 : ~ In s l1 -> ~ In s l2 -> put_before s c (l1 ++ s :: l2) = l1 ++ c :: s :: l2.
Proof. intros H1 H2. unfold put_before. rewrite flat_map_app. cbn [flat_map]. rewrite Nat.eqb_refl. cbn [app]. f_equal; [apply (put_before_none s c l1 H1)|]. do 2 f_equal. apply (put_before_none s c l2 H2). Qed.
Lemma after_splice h0 k0 p s c l1 l2 : links h0 k0 -> k0 p = l1 ++ s :: l2 -> (forall x, In x (k0 p) -> x <> p /\ x <> c) -> p <> c -> exists h',
  (let h1 := upd h0 c (set_c_nxt (c_nxt (h0 s))) in
  let h2 := match c_nxt (h1 c) with Some n => upd h1 n (set_c_prv (Some c)) | None => h1 end in
  let h3 := upd h2 c (set_c_prv (Some s)) in
  let h4 := upd h3 s (set_c_nxt (Some c)) in
  let h5 := upd h4 c (set_c_parent (c_parent (h4 s))) in
  match c_nxt (h5 c) with
  | Some _ => Ok h5
  | None => let* p := of_option AttributeError (c_parent (h5 c)) in Ok (upd h5 p (set_c_last (Some c)))
  end) = Ok h' /\ splice h0 h' p (l1 ++ [s]) c l2.
Proof.
  intros L Ek Hk Hpc. destruct (lk_kid _ _ L p l1 s l2 Ek) as (P1 & P2 & P3).
  destruct (Hk s) as [Hsp Hsc]; [rewrite Ek; apply in_or_app; right; left; reflexivity|].
  pose proof (lk_first _ _ L p) as Ef. pose proof (lk_last _ _ L p) as El. rewrite Ek in Ef, El.
  rewrite P3. assert (Q1 : forall v, c_nxt (upd h0 c (set_c_nxt v) c) = v) by (intros v; rewrite upd_same; reflexivity). cbv zeta. rewrite Q1. destruct l2 as [|n l2]; cbn [hd_error].
  - set (h4 := upd (upd (upd h0 c _) c _) s _). assert (E4 : c_parent (h4 s) = Some p) by (unfold h4; heap_cases). rewrite E4. set (h5 := upd h4 c _). assert (E5 : c_nxt (h5 c) = None) by (unfold h5, h4; heap_cases). assert (E6 : c_parent (h5 c) = Some p) by (unfold h5, h4; heap_cases). rewrite E5, E6. cbn [of_option bind]. eexists. split; [reflexivity|]. unfold h5, h4.
    rewrite last_opt_snoc' in El.
    constructor; intros x; rewrite ?last_opt_snoc', ?last_opt_app'; rewrite ?hd_app_cons in *; rewrite <- ?app_assoc; cbn [app hd_error is_opt last_opt]; rewrite ?hd_app_cons; heap_cases; try (destruct l1; cbn [app] in *; congruence).
  - destruct (Hk n) as [Hnp Hnc]; [rewrite Ek; apply in_or_app; right; right; left; reflexivity|].
    assert (Hns : n <> s). { pose proof (lk_nodup _ _ L p) as Nd. rewrite Ek in Nd. apply nodup_mid in Nd as [_ Nd]. intros ->. apply Nd. left. reflexivity. }
    set (h4 := upd (upd (upd (upd h0 c _) n _) c _) s _). assert (E4 : c_parent (h4 s) = Some p) by (unfold h4; heap_cases). rewrite E4. set (h5 := upd h4 c _). assert (E5 : c_nxt (h5 c) = Some n) by (unfold h5, h4; heap_cases). rewrite E5. eexists. split; [reflexivity|]. unfold h5, h4.
    rewrite last_opt_app' in El. change (last_opt (s :: n :: l2)) with (last_opt (n :: l2)) in El.
    constructor; intros x; rewrite ?last_opt_snoc', ?last_opt_app'; rewrite ?hd_app_cons in *; rewrite <- ?app_assoc; cbn [app hd_error is_opt]; change (last_opt (c :: n :: l2)) with (last_opt (n :: l2)); rewrite ?hd_app_cons; heap_cases; try (destruct l1; cbn [app] in *; congruence).
Qed.
Lemma before_splice h0 k0 p s c l1 l2 : links h0 k0 -> k0 p = l1 ++ s :: l2 -> (forall x, In x (k0 p) -> x <> p /\ x <> c) -> p <> c -> exists h',
  (let h1 := upd h0 c (set_c_prv (c_prv (h0 s))) in
  let h2 := match c_prv (h1 c) with Some n => upd h1 n (set_c_nxt (Some c)) | None => h1 end in
  let h3 := upd h2 c (set_c_nxt (Some s)) in
  let h4 := upd h3 s (set_c_prv (Some c)) in
  let h5 := upd h4 c (set_c_parent (c_parent (h4 s))) in
  match c_prv (h5 c) with
  | Some _ => Ok h5
  | None => let* p := of_option AttributeError (c_parent (h5 c)) in Ok (upd h5 p (set_c_first (Some c)))
  end) = Ok h' /\ splice h0 h' p l1 c (s :: l2).
Proof.
  intros L Ek Hk Hpc. destruct (lk_kid _ _ L p l1 s l2 Ek) as (P1 & P2 & P3).
  destruct (Hk s) as [Hsp Hsc]; [rewrite Ek; apply in_or_app; right; left; reflexivity|].
  pose proof (lk_first _ _ L p) as Ef. pose proof (lk_last _ _ L p) as El. rewrite Ek in Ef, El.
  rewrite P2. assert (Q1 : forall v, c_prv (upd h0 c (set_c_prv v) c) = v) by (intros v; rewrite upd_same; reflexivity). cbv zeta. rewrite Q1. destruct l1 as [|n l1 _] using rev_ind; cbn [last_opt].
  - set (h4 := upd (upd (upd h0 c _) c _) s _). assert (E4 : c_parent (h4 s) = Some p) by (unfold h4; heap_cases). rewrite E4. set (h5 := upd h4 c _). assert (E5 : c_prv (h5 c) = None) by (unfold h5, h4; heap_cases). assert (E6 : c_parent (h5 c) = Some p) by (unfold h5, h4; heap_cases). rewrite E5, E6. cbn [of_option bind]. eexists. split; [reflexivity|]. unfold h5, h4.
    constructor; intros x; cbn [app hd_error is_opt] in *; change (last_opt (c :: s :: l2)) with (last_opt (s :: l2)); cbn [last_opt is_opt]; change (last_opt (s :: l2)) with (match l2 with [] => Some s | _ => last_opt l2 end) in *; heap_cases; try (destruct l1; cbn [app] in *; congruence).
  - destruct (Hk n) as [Hnp Hnc]; [rewrite Ek; apply in_or_app; left; apply in_or_app; right; left; reflexivity|].
    assert (Hns : n <> s). { pose proof (lk_nodup _ _ L p) as Nd. rewrite Ek in Nd. apply nodup_mid in Nd as [Nd _]. intros ->. apply Nd. apply in_or_app. right. left. reflexivity. }
    rewrite last_opt_snoc' in *.
    set (h4 := upd (upd (upd (upd h0 c _) n _) c _) s _). assert (E4 : c_parent (h4 s) = Some p) by (unfold h4; heap_cases). rewrite E4. set (h5 := upd h4 c _). assert (E5 : c_prv (h5 c) = Some n) by (unfold h5, h4; heap_cases). rewrite E5. eexists. split; [reflexivity|]. unfold h5, h4.
    rewrite last_opt_app' in El.
    constructor; intros x; rewrite ?last_opt_snoc', ?last_opt_app'; rewrite ?hd_app_cons in *; cbn [is_opt hd_error]; change (last_opt (c :: s :: l2)) with (last_opt (s :: l2)); rewrite <- ?app_assoc in *; cbn [app] in *; rewrite ?hd_app_cons in *; heap_cases; try (destruct l1; cbn [app] in *; congruence).
Qed.
Lemma sibling_facts h k s c p : forest h k -> s <> c -> ~ below k c s -> In s (k p) ->
  p <> c /\ ~ below k c p /\ (forall x, In x (take_out c (k p)) -> x <> p /\ x <> c) /\ exists l1 l2, take_out c (k p) = l1 ++ s :: l2 /\ ~ In s l1 /\ ~ In s l2 /\ forall x, x <> p -> ~ In s (take_out c (k x)).
Proof.
  intros Hf Hsc Hn Hp. pose proof Hf as [L F].
  split; [intros ->; apply Hn, below_kid, Hp|]. split; [intros X; apply Hn, (below_step k c p s X Hp)|].
  split; [intros x X; apply take_out_in in X as [X1 X2]; split; [apply (forest_ne h k p x Hf X1)|exact X2]|].
  assert (X : In s (take_out c (k p))) by (apply take_out_in; auto). apply in_split in X as (l1 & l2 & E). exists l1, l2. split; [exact E|].
  assert (Nd : NoDup (take_out c (k p))) by (apply NoDup_filter, (lk_nodup _ _ L)). rewrite E in Nd. apply nodup_mid in Nd as [N1 N2]. split; [exact N1|]. split; [exact N2|].
  intros x Hx X. apply take_out_in in X as [X _]. apply Hx. apply (links_one h k s p x L Hp X).
Qed.
Theorem after_forest h k s c : forest h k -> op_allowed (OpAfter s c) k ->
  exists h', insert_after s c h = Ok h' /\ forest h' (op_kids (OpAfter s c) k) /\ (forall x, c_data (h' x) = c_data (h x)).
Proof.
  intros Hf (Hsc & Hn & p & Hp). destruct (unlink_links h k c Hf) as [L D]. destruct (sibling_facts h k s c p Hf Hsc Hn Hp) as (Hpc & Hb & Hk & l1 & l2 & E & N1 & N2 & N3).
  destruct (after_splice (unlink c h) _ p s c l1 l2 L E Hk Hpc) as (h' & E' & S). exists h'. split; [exact E'|].
  apply (splice_op h _ k p (l1 ++ [s]) c l2); [exact Hf|exact Hpc|exact Hb|exact S|rewrite E, <- app_assoc; reflexivity|].
  intros x. unfold op_kids, with_kids. destruct (Nat.eqb_spec x p) as [->|Hx]; [rewrite E; apply put_after_mid; assumption|apply put_after_none, N3, Hx].
Qed.
Theorem before_forest h k s c : forest h k -> op_allowed (OpBefore s c) k ->
  exists h', insert_before s c h = Ok h' /\ forest h' (op_kids (OpBefore s c) k) /\ (forall x, c_data (h' x) = c_data (h x)).
Proof.
  intros Hf (Hsc & Hn & p & Hp). destruct (unlink_links h k c Hf) as [L D]. destruct (sibling_facts h k s c p Hf Hsc Hn Hp) as (Hpc & Hb & Hk & l1 & l2 & E & N1 & N2 & N3).
  destruct (before_splice (unlink c h) _ p s c l1 l2 L E Hk Hpc) as (h' & E' & S). exists h'. split; [exact E'|].
  apply (splice_op h _ k p l1 c (s :: l2)); [exact Hf|exact Hpc|exact Hb|exact S|rewrite E; reflexivity|].
  intros x. unfold op_kids, with_kids. destruct (Nat.eqb_spec x p) as [->|Hx]; [rewrite E; apply put_before_mid; assumption|apply put_before_none, N3, Hx].
Qed.
Theorem unlink_forest h k c : forest h k -> forest (unlink c h) (op_kids (OpUnlink c) k) /\ (forall x, c_data (unlink c h x) = c_data (h x)).
Proof.
  intros Hf. destruct (unlink_links h k c Hf) as [L D]. split; [|exact D]. split; [exact L|]. intros x X. apply (below_sub k) in X; [apply Hf in X; exact X|]. intros y z Y. apply take_out_in in Y. tauto.
Qed.
Theorem op_forest h k o : forest h k -> op_allowed o k ->
  exists h', run_op o h = Ok h' /\ forest h' (op_kids o k) /\ (forall x, c_data (h' x) = c_data (h x)).
Proof.
  intros Hf Ha. destruct o as [a c|a c|s c|s c|c].
  - eexists. split; [reflexivity|]. apply append_forest; assumption.
  - eexists. split; [reflexivity|]. apply prepend_forest; assumption.
  - apply after_forest; assumption.
  - apply before_forest; assumption.
  - eexists. split; [reflexivity|]. apply unlink_forest; assumption.
Qed.
Theorem ops_forest l : forall h k, forest h k -> ops_allowed l k ->
  exists h', run_ops l h = Ok h' /\ forest h' (ops_kids l k) /\ (forall x, c_data (h' x) = c_data (h x)).
Proof.
  induction l as [|o l IH]; intros h k Hf Ha; [exists h; cbn; auto|]. destruct Ha as [Ha1 Ha2]. destruct (op_forest h k o Hf Ha1) as (h1 & E1 & F1 & D1).
  destruct (IH h1 _ F1 Ha2) as (h2 & E2 & F2 & D2). exists h2. cbn [run_ops]. rewrite E1. split; [exact E2|]. split; [exact F2|]. intros x. rewrite D2. apply D1.
Qed.
(** A node without a parent has no place beside it. *)
Theorem sibling_needs_parent h k s c : forest h k -> s <> c -> c_parent (h s) = None -> insert_after s c h = Err AttributeError /\ insert_before s c h = Err AttributeError.
Proof.
  intros Hf Hsc Hp. destruct (unlink_links h k c Hf) as [L D].
  assert (Hp' : c_parent (unlink c h s) = None). { destruct (c_parent (unlink c h s)) as [p|] eqn:E; [|reflexivity]. apply (lk_parent _ _ L) in E. apply take_out_in in E as [E _]. apply in_split in E as (l1 & l2 & E). apply (lk_kid _ _ (proj1 Hf)) in E as (E & _). congruence. }
  destruct (lk_root _ _ L s Hp') as [Q1 Q2]. clear L D Hp Hf. split; unfold insert_after, insert_before; set (h0 := unlink c h) in *; clearbody h0; rewrite ?Q1, ?Q2; cbv zeta.
  - assert (R : c_nxt (upd h0 c (set_c_nxt None) c) = None) by (rewrite upd_same; reflexivity). rewrite R.
    set (h4 := upd (upd (upd h0 c _) c _) s _). assert (E4 : c_parent (h4 s) = None) by (unfold h4; heap_cases). rewrite E4. set (h5 := upd h4 c _). assert (E5 : c_nxt (h5 c) = None) by (unfold h5, h4; heap_cases). assert (E6 : c_parent (h5 c) = None) by (unfold h5, h4; heap_cases). rewrite E5, E6. reflexivity.
  - assert (R : c_prv (upd h0 c (set_c_prv None) c) = None) by (rewrite upd_same; reflexivity). rewrite R.
    set (h4 := upd (upd (upd h0 c _) c _) s _). assert (E4 : c_parent (h4 s) = None) by (unfold h4; heap_cases). rewrite E4. set (h5 := upd h4 c _). assert (E5 : c_prv (h5 c) = None) by (unfold h5, h4; heap_cases). assert (E6 : c_parent (h5 c) = None) by (unfold h5, h4; heap_cases). rewrite E5, E6. reflexivity.
Qed.
