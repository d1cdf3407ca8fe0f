(** * The walker over linked nodes: C08 *)
From Verif Require Import Base Regex Node RegexFacts StrFacts NodeHeap SpecHeap HeapFacts.
From Coq Require Import ZifyBool ZifyNat.

Section TreeInd.
  Variable P : tree -> Prop.
  Hypothesis H : forall d ts, Forall P ts -> P (T d ts).
  Fixpoint tree_rect' (t : tree) : P t :=
    match t with T d ts => H d ts ((fix go l : Forall P l := match l with [] => Forall_nil P | x :: l' => Forall_cons x (tree_rect' x) (go l') end) ts) end.
End TreeInd.
Lemma stands_inv h k a d ts : stands h k a (T d ts) -> d = c_data (h a) /\ Forall2 (stands h k) (k a) ts.
Proof. intros H. inversion H; subst. auto. Qed.

(** ** A walk over a subtree *)
(** where the walker goes when it is done with [a] *)
Definition after (h : heap) (root a : addr) : nwalker :=
  if Nat.eqb a root then NW None false else match c_nxt (h a) with None => NW (c_parent (h a)) false | Some n => NW (Some n) true end.
Lemma walk_none f h root e : walk f h root (NW None e) = Ok [].
Proof. destruct f; reflexivity. Qed.
Lemma walk_cur f h root a e : walk (S f) h root (NW (Some a) e) =
  let* l := walk f h root (if e && is_container (n_t (c_data (h a))) then match c_first (h a) with Some x => NW (Some x) true | None => NW (Some a) false end else after h root a) in Ok ((a, e) :: l).
Proof.
  cbn [walk walker_next w_current w_entering]. destruct (e && is_container _); [reflexivity|]. unfold after. destruct (Nat.eqb a root); [|reflexivity]. rewrite !walk_none. reflexivity.
Qed.

(** the events of the walk, by recursion on the tree *)
Fixpoint order (k : kids_map) (a : addr) (t : tree) : list (addr * bool) :=
  match t with T d ts =>
    if is_container (n_t d)
    then (a, true) :: (fix go (l : list addr) (ts : list tree) {struct ts} := match l, ts with x :: l', t' :: ts' => order k x t' ++ go l' ts' | _, _ => [] end) (k a) ts ++ [(a, false)]
    else [(a, true)]
  end.
Fixpoint orders (k : kids_map) (l : list addr) (ts : list tree) {struct ts} : list (addr * bool) := match l, ts with x :: l', t' :: ts' => order k x t' ++ orders k l' ts' | _, _ => [] end.
Lemma order_eq k a d ts : order k a (T d ts) = if is_container (n_t d) then (a, true) :: orders k (k a) ts ++ [(a, false)] else [(a, true)].
Proof.
  cbn [order]. destruct (is_container _); [|reflexivity]. f_equal. f_equal.
  all: generalize (k a) as l; induction ts as [|t ts IH]; intros [|x l]; try reflexivity. all: cbn [orders]; f_equal; apply IH.
Qed.
Lemma order_doc h k : forall t a, stands h k a t -> doc_order h k a (order k a t).
Proof.
  induction t as [d ts IH] using tree_rect'. intros a Hs. apply stands_inv in Hs as [-> Hk]. rewrite order_eq. destruct (is_container _) eqn:Ec; [|apply order_leaf, Ec].
  assert (E : orders k (k a) ts = concat (map (fun p => order k (fst p) (snd p)) (combine (k a) ts))).
  { clear. generalize (k a) as l. induction ts as [|t ts IH]; intros [|x l]; try reflexivity. cbn [orders combine map concat fst snd]. f_equal. apply IH. }
  rewrite E. apply order_node; [exact Ec|]. clear E Ec. revert IH. induction Hk as [|x t l ts Hx Hk IHk]; intros IH; [constructor|]. inversion IH; subst. cbn [combine map fst snd]. constructor; auto.
Qed.

Lemma app_bind {A} (x y : list A) (r : res (list A)) : (let* l := (let* l := r in Ok (x ++ l)) in Ok (y ++ l)) = (let* l := r in Ok ((y ++ x) ++ l)).
Proof. destruct r; cbn [bind]; [rewrite app_assoc|]; reflexivity. Qed.
Lemma in_app_mid {A} (l1 : list A) x l2 : In x (l1 ++ x :: l2).
Proof. apply in_or_app. right. left. reflexivity. Qed.
Theorem walk_sub h k root : forest h k -> forall t a f, stands h k a t -> a = root \/ below k root a ->
  walk (length (order k a t) + f) h root (NW (Some a) true) = (let* l := walk f h root (after h root a) in Ok (order k a t ++ l)).
Proof.
  intros Hf. induction t as [d ts IH] using tree_rect'. intros a f Hs Hb. apply stands_inv in Hs as [-> Hk]. rewrite order_eq. destruct (is_container (n_t (c_data (h a)))) eqn:Ec.
  2: { cbn [length Nat.add]. rewrite walk_cur. rewrite Ec. reflexivity. }
  cbn [length Nat.add]. rewrite walk_cur. rewrite Ec. cbn [andb]. rewrite app_length, (lk_first _ _ (proj1 Hf)).
  (* the children from [l] on *)
  assert (Hl : forall l ts, Forall2 (stands h k) l ts -> Forall (fun t => forall a f, stands h k a t -> a = root \/ below k root a -> walk (length (order k a t) + f) h root (NW (Some a) true) = (let* l := walk f h root (after h root a) in Ok (order k a t ++ l))) ts ->
    forall l1 f, k a = l1 ++ l -> walk (length (orders k l ts) + f) h root (match hd_error l with Some x => NW (Some x) true | None => NW (Some a) false end) = (let* m := walk f h root (NW (Some a) false) in Ok (orders k l ts ++ m))).
  { clear IH Hk ts f. induction 1 as [|x t l ts Hx Hk IHk]; intros IH l1 f El; [cbn [orders length Nat.add app hd_error]; destruct (walk f h root (NW (Some a) false)); reflexivity|]. inversion IH as [|? ? IH1 IH2]; subst.
    cbn [orders hd_error]. rewrite app_length, <- Nat.add_assoc.
    assert (Bx : below k root x). { destruct Hb as [->|Hb]; [apply below_kid; rewrite El; apply in_app_mid|apply (below_step k root a x Hb); rewrite El; apply in_app_mid]. }
    rewrite (IH1 x _ Hx) by (right; exact Bx).
    destruct (lk_kid _ _ (proj1 Hf) a l1 x l El) as (P1 & _ & P3).
    assert (Ea : after h root x = match hd_error l with Some x => NW (Some x) true | None => NW (Some a) false end).
    { unfold after. destruct (Nat.eqb_spec x root) as [->|_]; [exfalso; apply (proj2 Hf root); exact Bx|]. rewrite P1, P3. destruct l; reflexivity. }
    rewrite Ea. rewrite (IHk IH2 (l1 ++ [x])) by (rewrite <- app_assoc; exact El). apply app_bind. }
  rewrite <- Nat.add_assoc. rewrite (Hl (k a) ts Hk IH [] _ eq_refl). cbn [length Nat.add]. rewrite walk_cur. cbn [andb]. destruct (walk f h root (after h root a)) as [l|]; [|reflexivity]. cbn [bind]. cbn [app]. rewrite <- app_assoc. reflexivity.
Qed.
Lemma walk_fuel h root : forall f w l, walk f h root w = Ok l -> forall g, f <= g -> walk g h root w = Ok l.
Proof.
  induction f as [|f IH]; intros w l E [|g] Hg; cbn [walk] in *; destruct (walker_next h root w) as [[[x e] w']|] eqn:En; try lia; try exact E; try discriminate.
  destruct (walk f h root w') as [l'|] eqn:Ew; [|discriminate]. rewrite (IH w' l' Ew g) by lia. exact E.
Qed.
Theorem walk_tree h k root t : forest h k -> stands h k root t ->
  forall fuel, length (order k root t) <= fuel -> walk fuel h root (new_walker root) = Ok (order k root t).
Proof.
  intros Hf Hs fuel Hl. apply (walk_fuel h root (length (order k root t))); [|exact Hl]. rewrite <- (Nat.add_0_r (length _)). unfold new_walker. rewrite (walk_sub h k root Hf t root 0 Hs (or_introl eq_refl)).
  unfold after. rewrite Nat.eqb_refl, walk_none. cbn [bind]. rewrite app_nil_r. reflexivity.
Qed.
Theorem walk_total h k root t evs : forest h k -> stands h k root t -> doc_order h k root evs ->
  forall fuel, length evs <= fuel -> walk fuel h root (new_walker root) = Ok evs.
Proof.
  intros Hf Hs Hd. assert (E : evs = order k root t); [|rewrite E; apply walk_tree; assumption].
  clear Hf. revert root evs Hs Hd. induction t as [d ts IH] using tree_rect'. intros a evs Hs Hd. apply stands_inv in Hs as [-> Hk]. rewrite order_eq. inversion Hd as [? Ec|? ls Ec Hl]; subst; rewrite Ec; [reflexivity|].
  do 2 f_equal. clear Ec Hd. revert ls Hl. induction Hk as [|x t l ts Hx Hk IHk]; intros ls Hl; [inversion Hl; reflexivity|]. inversion Hl as [|? e ? ls' He Hl']; subst. inversion IH; subst. cbn [concat orders]. f_equal; auto.
Qed.

(** ** Subtrees do not overlap *)
Lemma below_last k a b : below k a b -> exists p, In b (k p) /\ under k a p.
Proof. intros H. inversion H as [? ? X|? p ? X Y]; subst; [exists a; split; [exact X|left; reflexivity]|exists p; split; [exact Y|right; exact X]]. Qed.
Lemma below_chain h k x y z : links h k -> below k x z -> below k y z -> x = y \/ below k x y \/ below k y x.
Proof.
  intros L Hx. revert y. induction Hx as [x z Hin|x b z Hx IH Hin]; intros y Hy; apply below_last in Hy as (p & Hp & Hu); pose proof (links_one h k z _ _ L Hin Hp) as ->.
  - destruct Hu as [->|Hu]; auto.
  - destruct Hu as [->|Hu]; auto.
Qed.
Lemma siblings_apart h k a x y z : forest h k -> In x (k a) -> In y (k a) -> under k x z -> under k y z -> x = y.
Proof.
  intros [L F] Hx Hy Ux Uy.
  assert (Hn : forall x y, In x (k a) -> In y (k a) -> ~ below k x y).
  { clear - L F. intros x y Hx Hy Hb. apply below_last in Hb as (p & Hp & Hu). pose proof (links_one h k y _ _ L Hy Hp) as ->. destruct Hu as [->|Hu]; [apply (F x), below_kid, Hx|]. apply (F a). apply (below_trans k a x a); [apply below_kid, Hx|exact Hu]. }
  destruct Ux as [->|Ux], Uy as [->|Uy]; [reflexivity|destruct (Hn y x Hy Hx Uy)|destruct (Hn x y Hx Hy Ux)|].
  destruct (below_chain h k x y z L Ux Uy) as [E|[E|E]]; [exact E|destruct (Hn x y Hx Hy E)|destruct (Hn y x Hy Hx E)].
Qed.
Lemma under_kid k a x z : In x (k a) -> under k x z -> below k a z.
Proof. intros Hx [->|H]; [apply below_kid, Hx|]. apply (below_trans k a x z); [apply below_kid, Hx|exact H]. Qed.
Lemma below_kid_under k a z : below k a z -> exists x, In x (k a) /\ under k x z.
Proof. induction 1 as [a b H|a b c _ (x & Hx & Hu) H]; [exists b; split; [exact H|left; reflexivity]|]. exists x. split; [exact Hx|]. right. destruct Hu as [->|Hu]; [apply below_kid, H|apply (below_step k x b c Hu H)]. Qed.

(** ** Every node once *)
Lemma order_under h k : forall t a x e, stands h k a t -> In (x, e) (order k a t) -> under k a x.
Proof.
  induction t as [d ts IH] using tree_rect'. intros a x e Hs Hin. apply stands_inv in Hs as [-> Hk]. rewrite order_eq in Hin. destruct (is_container _); [|destruct Hin as [[= <- <-]|[]]; left; reflexivity].
  destruct Hin as [[= <- <-]|Hin]; [left; reflexivity|]. apply in_app_or in Hin as [Hin|[[= <- <-]|[]]]; [|left; reflexivity]. right.
  assert (H : exists y, In y (k a) /\ under k y x); [|destruct H as (y & H1 & H2); apply (under_kid k a y x H1 H2)].
  revert Hin. induction Hk as [|y t l ts Hy Hk IHk]; intros Hin; [destruct Hin|]. inversion IH as [|? ? IH1 IH2]; subst. cbn [orders] in Hin. apply in_app_or in Hin as [Hin|Hin].
  - exists y. split; [left; reflexivity|apply (IH1 y x e Hy Hin)].
  - destruct (IHk IH2 Hin) as (z & Hz & Hu). exists z. split; [right; exact Hz|exact Hu].
Qed.
Lemma orders_in k x e : forall l ts, In (x, e) (orders k l ts) -> exists y t, In y l /\ In t ts /\ In (x, e) (order k y t).
Proof.
  intros l ts; revert l. induction ts as [|t ts IH]; intros [|y l] H; try destruct H. cbn [orders] in H. apply in_app_or in H as [H|H]; [exists y, t; split; [left; reflexivity|]; split; [left; reflexivity|exact H]|].
  destruct (IH l H) as (y' & t' & H1 & H2 & H3). exists y', t'. split; [right; exact H1|]. split; [right; exact H2|exact H3].
Qed.
Lemma nodup_app {A} (l1 l2 : list A) : NoDup l1 -> NoDup l2 -> (forall x, In x l1 -> ~ In x l2) -> NoDup (l1 ++ l2).
Proof.
  intros H1 H2 H. induction H1 as [|x l1 Hx H1 IH]; [exact H2|]. cbn [app]. constructor; [|apply IH; intros y Hy; apply H; right; exact Hy]. intros X. apply in_app_or in X as [X|X]; [contradiction|]. apply (H x); [left; reflexivity|exact X].
Qed.
Lemma order_nodup h k : forest h k -> forall t a, stands h k a t -> NoDup (order k a t).
Proof.
  intros Hf. induction t as [d ts IH] using tree_rect'. intros a Hs. apply stands_inv in Hs as [-> Hk]. rewrite order_eq. destruct (is_container _); [|repeat constructor; intros []].
  assert (Hbelow : forall x e, In (x, e) (orders k (k a) ts) -> x <> a).
  { intros x e Hin ->. assert (exists y, In y (k a) /\ under k y a) as (y & Hy & Hu); [|apply (proj2 Hf a), (under_kid k a y a Hy Hu)].
    clear IH. revert Hin. induction Hk as [|y t l ts Hy Hk IHk]; intros Hin; [destruct Hin|]. cbn [orders] in Hin. apply in_app_or in Hin as [Hin|Hin].
    - exists y. split; [left; reflexivity|apply (order_under h k t y a e Hy Hin)].
    - destruct (IHk Hin) as (z & Hz & Hu). exists z. split; [right; exact Hz|exact Hu]. }
  assert (Hn : forall l ts, Forall2 (stands h k) l ts -> incl l (k a) -> NoDup l -> Forall (fun t => forall a, stands h k a t -> NoDup (order k a t)) ts -> NoDup (orders k l ts)).
  { clear - Hf. intros l ts Hk. induction Hk as [|y t l ts Hy Hk IHk]; intros Hi Nd IH; [constructor|]. cbn [orders]. inversion IH as [|? ? IH1 IH2]; subst. inversion Nd as [|? ? Nd1 Nd2]; subst.
    apply nodup_app; [apply IH1, Hy|apply IHk; auto; intros z Hz; apply Hi; right; exact Hz|].
    intros [x e] H1 H2. apply (order_under h k t y x e Hy) in H1. assert (exists z, In z l /\ under k z x) as (z & Hz & Hu).
    { clear - H2 Hk. revert H2. induction Hk as [|z t l ts Hz Hk IHk]; intros Hin; [destruct Hin|]. cbn [orders] in Hin. apply in_app_or in Hin as [Hin|Hin].
      - exists z. split; [left; reflexivity|apply (order_under h k t z x e Hz Hin)].
      - destruct (IHk Hin) as (w & Hw & Hu). exists w. split; [right; exact Hw|exact Hu]. }
    apply Nd1. rewrite (siblings_apart h k a y z x Hf); [exact Hz|apply Hi; left; reflexivity|apply Hi; right; exact Hz|exact H1|exact Hu]. }
  constructor.
  - intros X. apply in_app_or in X as [X|[X|[]]]; [apply (Hbelow a true X); reflexivity|discriminate].
  - apply nodup_app; [apply (Hn (k a) ts Hk); [intros x Hx; exact Hx|apply (lk_nodup _ _ (proj1 Hf))|exact IH]|repeat constructor; intros []|]. intros [x e] X [Y|[]]. injection Y as <- <-. apply (Hbelow a false X). reflexivity.
Qed.
Lemma order_all h k : forall t a x, stands h k a t -> bare_leaves h k a -> under k a x -> In (x, true) (order k a t) /\ (is_container (n_t (c_data (h x))) = true -> In (x, false) (order k a t)).
Proof.
  induction t as [d ts IH] using tree_rect'. intros a x Hs Hb Hu. apply stands_inv in Hs as [-> Hk]. rewrite order_eq. destruct Hu as [->|Hu].
  - destruct (is_container _); split; try discriminate; [left; reflexivity|intros _; right; apply in_app_mid|left; reflexivity].
  - apply below_kid_under in Hu as (y & Hy & Hu). destruct (is_container (n_t (c_data (h a)))) eqn:Ec; [|rewrite (Hb a (or_introl eq_refl) Ec) in Hy; destruct Hy].
    assert (Hin : exists t, In t ts /\ stands h k y t /\ forall e, In (x, e) (order k y t) -> In (x, e) (orders k (k a) ts)).
    { clear - Hk Hy. induction Hk as [|z t l ts Hz Hk IHk]; [destruct Hy|]. destruct Hy as [->|Hy].
      - exists t. split; [left; reflexivity|]. split; [exact Hz|]. intros e X. cbn [orders]. apply in_or_app. left. exact X.
      - destruct (IHk Hy) as (t' & H1 & H2 & H3). exists t'. split; [right; exact H1|]. split; [exact H2|]. intros e X. cbn [orders]. apply in_or_app. right. apply H3, X. }
    destruct Hin as (t & Ht & Hy' & Hin). rewrite Forall_forall in IH. assert (Hb' : bare_leaves h k y). { intros z Hz. apply Hb. right. apply (under_kid k a y z Hy Hz). }
    destruct (IH t Ht y x Hy' Hb' Hu) as [I1 I2]. split.
    + right. apply in_or_app. left. apply Hin, I1.
    + intros Ec'. right. apply in_or_app. left. apply Hin, I2, Ec'.
Qed.
Lemma order_false h k : forall t a x, stands h k a t -> In (x, false) (order k a t) -> is_container (n_t (c_data (h x))) = true.
Proof.
  induction t as [d ts IH] using tree_rect'. intros a x Hs Hin. apply stands_inv in Hs as [-> Hk]. rewrite order_eq in Hin. destruct (is_container _) eqn:Ec; [|destruct Hin as [[=]|[]]].
  destruct Hin as [[=]|Hin]. apply in_app_or in Hin as [Hin|[[= <-]|[]]]; [|exact Ec].
  clear Ec. revert Hin. induction Hk as [|y t l ts Hy Hk IHk]; intros Hin; [destruct Hin|]. inversion IH as [|? ? IH1 IH2]; subst. cbn [orders] in Hin. apply in_app_or in Hin as [Hin|Hin]; [apply (IH1 y x Hy Hin)|apply (IHk IH2 Hin)].
Qed.
(** each node is entered once, each container is left once, and there is nothing else *)
Theorem walk_once h k root t : forest h k -> stands h k root t -> bare_leaves h k root -> exists evs,
  (forall fuel, length evs <= fuel -> walk fuel h root (new_walker root) = Ok evs) /\ NoDup evs /\
  (forall x, In (x, true) evs <-> under k root x) /\
  (forall x, In (x, false) evs <-> under k root x /\ is_container (n_t (c_data (h x))) = true).
Proof.
  intros Hf Hs Hb. exists (order k root t). split; [apply walk_tree; assumption|]. split; [apply (order_nodup h k Hf t root Hs)|]. split; intros x; split; intros H.
  - apply (order_under h k t root x true Hs H).
  - apply (order_all h k t root x Hs Hb H).
  - split; [apply (order_under h k t root x false Hs H)|apply (order_false h k t root x Hs H)].
  - destruct H as [H1 H2]. apply (order_all h k t root x Hs Hb H1), H2.
Qed.

(** ** The events of Node.v *)
Theorem order_events h k root : forest h k -> forall t a anc, stands h k a t -> under k root a -> ancestors h root a anc ->
  Forall2 (describes h k root) (order k a t) (events anc t).
Proof.
  intros Hf. induction t as [d ts IH] using tree_rect'. intros a anc Hs Hu Ha. pose proof Hs as Hs'. apply stands_inv in Hs as [-> Hk]. rewrite order_eq. cbn [events]. destruct (is_container _).
  2: { constructor; [|constructor]. split; [exact Hs'|]. split; [reflexivity|exact Ha]. }
  constructor; [split; [exact Hs'|split; [reflexivity|exact Ha]]|]. apply Forall2_app.
  2: { constructor; [|constructor]. split; [exact Hs'|]. split; [reflexivity|exact Ha]. }
  assert (Hl : forall l, incl l (k a) -> forall ts, Forall2 (stands h k) l ts -> Forall (fun t => forall a anc, stands h k a t -> under k root a -> ancestors h root a anc -> Forall2 (describes h k root) (order k a t) (events anc t)) ts ->
    Forall2 (describes h k root) (orders k l ts) (flat_map (events (c_data (h a) :: anc)) ts)).
  { intros l Hi ts' Hk'. induction Hk' as [|y t l ts' Hy Hk' IHk]; intros IH'; [constructor|]. inversion IH' as [|? ? I1 I2]; subst. cbn [orders flat_map].
    assert (Hin : In y (k a)) by (apply Hi; left; reflexivity).
    assert (By : below k root y). { destruct Hu as [->|Hu]; [apply below_kid, Hin|apply (below_step k root a y Hu Hin)]. }
    apply Forall2_app; [|apply IHk; [intros z Hz; apply Hi; right; exact Hz|exact I2]]. apply I1; [exact Hy|right; exact By|].
    apply anc_up; [intros ->; apply (proj2 Hf root By)| |exact Ha]. apply in_split in Hin as (l1 & l2 & El). apply (lk_kid _ _ (proj1 Hf)) in El. tauto. }
  apply (Hl (k a)); [intros x Hx; exact Hx|exact Hk|exact IH].
Qed.
Theorem walk_events h k root t : forest h k -> stands h k root t -> exists evs,
  (forall fuel, length evs <= fuel -> walk fuel h root (new_walker root) = Ok evs) /\ Forall2 (describes h k root) evs (walker t).
Proof.
  intros Hf Hs. exists (order k root t). split; [apply walk_tree; assumption|]. apply order_events; [exact Hf|exact Hs|left; reflexivity|constructor].
Qed.
