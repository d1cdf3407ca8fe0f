(** * Every tree can be built from new nodes *)
From Verif Require Import Base Regex Node RegexFacts StrFacts NodeHeap SpecHeap HeapFacts HeapWalk NormFacts.
From Coq Require Import ZifyBool ZifyNat.

Lemma no_kids_below k c a : k c = [] -> ~ below k c a.
Proof. intros E H. apply below_kid_under in H as (x & Hx & _). rewrite E in Hx. destruct Hx. Qed.
Lemma new_forest data : forest (new_nodes data) no_kids.
Proof.
  split; [|intros x; apply no_kids_below; reflexivity]. constructor; intros; try reflexivity; try discriminate; [destruct l1; discriminate|auto|constructor].
Qed.

Definition free_from (h : heap) (k : kids_map) (n : addr) : Prop := forest h k /\ forall a, n <= a -> k a = [] /\ forall x, ~ In a (k x).
Lemma free_under h k n a x : free_from h k n -> under k a x -> a < n -> x < n.
Proof.
  intros [_ H] [->|Hb] Ha; [exact Ha|]. apply below_last in Hb as (p & Hp & _). destruct (Nat.lt_ge_cases x n) as [|Hx]; [assumption|]. destruct (H x Hx) as [_ Hn]. destruct (Hn p Hp).
Qed.
Definition put_data (d : ndata) (a : addr) (h : heap) : heap := upd h a (set_c_data d).
Lemma put_data_forest d a h k : forest h k -> forest (put_data d a h) k.
Proof. intros [L F]. split; [|exact F]. apply upd_data_links; [intros c; cbn; auto|exact L]. Qed.

Definition built (t : tree) : Prop := forall h k n, free_from h k n -> exists h' k' n', n < n' /\ free_from h' k' n' /\ stands h' k' n t /\
  (forall x y, n <= x -> In y (k' x) -> n < y) /\ (forall x, x < n -> k' x = k x /\ c_data (h' x) = c_data (h x)).
Lemma build_kids n : forall ts, Forall built ts -> forall h1 k1 m dts, n < m -> free_from h1 k1 m -> Forall2 (stands h1 k1) (k1 n) dts -> (forall x y, n <= x -> In y (k1 x) -> n < y) -> (forall x, ~ In n (k1 x)) ->
  exists h' k' n', n < n' /\ free_from h' k' n' /\ Forall2 (stands h' k') (k' n) (dts ++ ts) /\ (forall x y, n <= x -> In y (k' x) -> n < y) /\ (forall x, x < n -> k' x = k1 x) /\ (forall x, x <= n -> c_data (h' x) = c_data (h1 x)).
Proof.
  induction ts as [|t ts IHts]; intros IH h1 k1 m dts Hm Hfr Hd Hup Hn.
  - exists h1, k1, m. rewrite app_nil_r. auto 10.
  - inversion IH as [|? ? I1 I2]; subst. destruct (I1 h1 k1 m Hfr) as (h2 & k2 & m2 & Hm2 & Hfr2 & Hs2 & Hup2 & Hk2).
    assert (Hnm : forall x, ~ In m (k2 x)). { intros x Hx. destruct (Nat.lt_ge_cases x m) as [Hl|Hl]; [|specialize (Hup2 x m Hl Hx); lia]. rewrite (proj1 (Hk2 x Hl)) in Hx. apply (proj2 (proj2 Hfr m (le_n m)) x Hx). }
    assert (Hal : op_allowed (OpAppend n m) k2). { split; [lia|]. intros X. apply below_kid_under in X as (y & Hy & Hu). specialize (Hup2 m y (le_n m) Hy) as Hy'.
      assert (Hge : forall z, under k2 y z -> m < z). { intros z [->|Hz]; [exact Hy'|]. clear - Hz Hup2 Hy'. induction Hz as [y z Hz|y b z _ IHz Hz]; [apply (Hup2 y z); [lia|exact Hz]|apply (Hup2 b z); [specialize (IHz Hy'); lia|exact Hz]]. }
      specialize (Hge n Hu). lia. }
    destruct (append_forest h2 k2 n m (proj1 Hfr2) Hal) as [Hf3 D3]. set (h3 := append_child n m h2) in *. set (k3 := op_kids (OpAppend n m) k2) in *.
    assert (Ek3 : forall x, k3 x = k2 x ++ (if Nat.eqb x n then [m] else [])) by (intros x; unfold k3, op_kids; rewrite take_out_none by apply Hnm; reflexivity).
    assert (Hfr3 : free_from h3 k3 m2). { split; [exact Hf3|]. intros a Ha. destruct (proj2 Hfr2 a Ha) as [E1 E2]. rewrite Ek3, E1. destruct (Nat.eqb_spec a n); [lia|]. split; [reflexivity|]. intros x Hx. rewrite Ek3 in Hx. apply in_app_or in Hx as [Hx|Hx]; [apply (E2 x Hx)|]. destruct (Nat.eqb x n); [destruct Hx as [Hx|[]]; lia|destruct Hx]. }
    assert (Hn3 : forall x, ~ In n (k3 x)). { intros x Hx. rewrite Ek3 in Hx. apply in_app_or in Hx as [Hx|Hx]; [|destruct (Nat.eqb x n); [destruct Hx as [Hx|[]]; lia|destruct Hx]]. destruct (Nat.lt_ge_cases x m) as [Hl|Hl]; [rewrite (proj1 (Hk2 x Hl)) in Hx; apply (Hn x Hx)|specialize (Hup2 x n Hl Hx); lia]. }
    assert (Hold : forall y ty, y < m -> ~ under k1 y n -> stands h1 k1 y ty -> stands h3 k3 y ty).
    { intros y ty Hy Hu Hs. apply (stands_frame h1 k1); [exact Hs|]. intros z Hz. pose proof (free_under h1 k1 m y z Hfr Hz Hy) as Hzm. destruct (Hk2 z Hzm) as [E1 E2]. rewrite D3, Ek3, E1, E2. destruct (Nat.eqb_spec z n) as [->|]; [contradiction|]. rewrite app_nil_r. auto. }
    assert (Hkn : k3 n = k1 n ++ [m]) by (rewrite Ek3, Nat.eqb_refl, (proj1 (Hk2 n Hm)); reflexivity).
    destruct (IHts I2 h3 k3 m2 (dts ++ [t])) as (h' & k' & n' & R1 & R2 & R3 & R4 & R5 & R6).
    + lia.
    + exact Hfr3.
    + rewrite Hkn. apply Forall2_app.
      * assert (Hkids : forall y, In y (k1 n) -> y < m /\ ~ under k1 y n). { intros y Hy. split; [destruct (Nat.lt_ge_cases y m) as [|Hl]; [assumption|destruct (proj2 (proj2 Hfr y Hl) n Hy)]|]. intros X. apply (proj2 (proj1 Hfr) n), (under_kid k1 n y n Hy X). }
        clear - Hd Hold Hkids. induction Hd as [|y ty l m' Hy Hd IHd]; constructor; [apply Hold; [apply Hkids; left; reflexivity|apply Hkids; left; reflexivity|exact Hy]|apply IHd; intros z Hz; apply Hkids; right; exact Hz].
      * constructor; [|constructor]. apply (stands_frame h2 k2); [exact Hs2|]. intros z Hz. rewrite D3, Ek3. split; [reflexivity|]. destruct (Nat.eqb_spec z n) as [->|]; [|apply app_nil_r]. exfalso. destruct Hz as [Hz|Hz]; [lia|]. apply (proj2 Hal Hz).
    + intros x y Hx Hy. rewrite Ek3 in Hy. apply in_app_or in Hy as [Hy|Hy]; [|destruct (Nat.eqb x n); [destruct Hy as [Hy|[]]; lia|destruct Hy]]. destruct (Nat.lt_ge_cases x m) as [Hl|Hl]; [rewrite (proj1 (Hk2 x Hl)) in Hy; apply (Hup x y Hx Hy)|specialize (Hup2 x y Hl Hy); lia].
    + exact Hn3.
    + exists h', k', n'. split; [exact R1|]. split; [exact R2|]. split; [rewrite <- app_assoc in R3; exact R3|]. split; [exact R4|]. split.
      * intros x Hx. rewrite R5 by exact Hx. rewrite Ek3. destruct (Nat.eqb_spec x n); [lia|]. rewrite app_nil_r. apply Hk2. lia.
      * intros x Hx. rewrite R6 by exact Hx. rewrite D3. apply Hk2. lia.
Qed.
Lemma build : forall t, built t.
Proof.
  induction t as [d ts IH] using tree_rect'. intros h k n Hfr. pose proof (proj2 Hfr n (le_n n)) as [En Hn].
  assert (Hfr1 : free_from (put_data d n h) k (S n)) by (split; [apply put_data_forest, Hfr|intros a Ha; apply (proj2 Hfr); lia]).
  destruct (build_kids n ts IH (put_data d n h) k (S n) []) as (h' & k' & n' & R1 & R2 & R3 & R4 & R5 & R6).
  - lia.
  - exact Hfr1.
  - rewrite En. constructor.
  - intros x y Hx Hy. rewrite (proj1 (proj2 Hfr x Hx)) in Hy. destruct Hy.
  - exact Hn.
  - exists h', k', n'. split; [exact R1|]. split; [exact R2|]. split.
    + assert (Ed : c_data (h' n) = d) by (rewrite R6 by lia; unfold put_data; rewrite upd_same; reflexivity). rewrite <- Ed at 1. constructor. exact R3.
    + split; [exact R4|]. intros x Hx. split; [apply R5, Hx|]. rewrite R6 by lia. unfold put_data. rewrite upd_other by lia. reflexivity.
Qed.
Theorem tree_built t : exists h k root, forest h k /\ stands h k root t.
Proof.
  destruct (build t (new_nodes (fun _ => new_node document None)) no_kids 0) as (h & k & n & _ & [Hf _] & Hs & _); [split; [apply new_forest|intros a _; split; [reflexivity|intros x []]]|]. exists h, k, 0. auto.
Qed.
