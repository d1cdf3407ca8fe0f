(** * Merging texts: C10 *)
From Verif Require Import Base Regex Node RegexFacts StrFacts NodeHeap SpecHeap HeapFacts HeapWalk.
From Coq Require Import ZifyBool ZifyNat.

(** ** On trees *)
Definition is_text (t : tree) : bool := ntype_eqb (t_type t) text.
Definition lit_of (d : ndata) : str := match n_literal d with Some l => l | None => [] end.
Definition join (x y : tree) : tree := T (set_n_literal (Some (lit_of (t_data x) ++ lit_of (t_data y))) (t_data x)) (t_kids x).
Fixpoint merge (ts : list tree) : list tree :=
  match ts with
  | [] => []
  | x :: r => match merge r with
              | y :: r' => if is_text x && is_text y then join x y :: r' else x :: y :: r'
              | [] => [x]
              end
  end.
Fixpoint norm (t : tree) : tree := match t with T d ts => if is_container (n_t d) then T d (merge (map norm ts)) else T d ts end.

Lemma ntype_eqb_eq a b : ntype_eqb a b = true <-> a = b.
Proof. split; [destruct a, b; intros H; try reflexivity; discriminate|intros ->; destruct b; reflexivity]. Qed.
Lemma is_text_eq t : is_text t = true <-> t_type t = text.
Proof. apply ntype_eqb_eq. Qed.
Lemma text_leaf : is_container text = false.
Proof. vm_compute. reflexivity. Qed.
Lemma join_type x y : t_type (join x y) = t_type x.
Proof. reflexivity. Qed.
Lemma join_text x y : is_text (join x y) = is_text x.
Proof. reflexivity. Qed.
Lemma join_assoc x y z : join (join x y) z = join x (join y z).
Proof. unfold join, lit_of. cbn [t_data t_kids n_literal set_n_literal]. rewrite app_assoc. reflexivity. Qed.
Lemma merge_join d p x r : is_text p = true -> is_text x = true -> merge (d ++ p :: x :: r) = merge (d ++ join p x :: r).
Proof.
  intros Hp Hx. induction d as [|y d IH]; cbn [app]; [|cbn [merge]; rewrite IH; reflexivity]. cbn [merge]. rewrite join_text, Hp. destruct (merge r) as [|y m]; [rewrite Hx; reflexivity|]. rewrite Hx. cbn [andb]. destruct (is_text y) eqn:Ey.
  - rewrite join_text, Hx. rewrite join_assoc. reflexivity.
  - rewrite Hx. reflexivity.
Qed.
Lemma merge_apart ts : apart ts -> merge ts = ts.
Proof.
  induction ts as [|x r IH]; [reflexivity|]. intros [H1 H2]. cbn [merge]. rewrite (IH H2). destruct r as [|y r]; [reflexivity|]. destruct (is_text x && is_text y) eqn:E; [|reflexivity]. apply andb_true_iff in E as [E1 E2]. destruct H1. split; apply is_text_eq; assumption.
Qed.
Lemma apart_merge ts : apart (merge ts).
Proof.
  induction ts as [|x r IH]; [exact I|]. cbn [merge]. destruct (merge r) as [|y m]; [split; exact I|]. destruct (is_text x && is_text y) eqn:E.
  - apply andb_true_iff in E as [E1 E2]. destruct IH as [H1 H2]. split; [|exact H2]. destruct m as [|z m]; [exact I|]. intros [_ H]. apply H1. split; [apply is_text_eq, E2|exact H].
  - split; [|exact IH]. intros [H1 H2]. apply is_text_eq in H1. apply is_text_eq in H2. rewrite H1, H2 in E. discriminate.
Qed.
Lemma merge_forall (P : tree -> Prop) ts : (forall x y, P x -> P y -> P (join x y)) -> Forall P ts -> Forall P (merge ts).
Proof.
  intros HJ. induction 1 as [|x r Hx Hr IH]; [constructor|]. cbn [merge]. destruct (merge r) as [|y m]; [constructor; auto|]. inversion IH; subst. destruct (is_text x && is_text y); constructor; auto.
Qed.
Lemma norm_type t : t_type (norm t) = t_type t.
Proof. destruct t as [d ts]. cbn [norm]. destruct (is_container _); reflexivity. Qed.
Lemma norm_settled : forall t, settled (norm t).
Proof.
  induction t as [d ts IH] using tree_rect'. cbn [norm]. destruct (is_container _) eqn:E; [|apply settled_leaf, E]. apply settled_node; [apply apart_merge|].
  assert (H : Forall settled (map norm ts)) by (apply Forall_map, IH).
  clear IH. induction H as [|x r Hx Hr IHr]; [constructor|]. cbn [merge]. destruct (merge r) as [|y m]; [constructor; auto|]. inversion IHr as [|? ? Hy Hm]; subst. destruct (is_text x && is_text y) eqn:Et; constructor; auto.
  apply andb_true_iff in Et as [Et _]. apply is_text_eq in Et. destruct x as [dx tx]. unfold join. apply settled_leaf. change (is_container (t_type (T dx tx)) = false). rewrite Et. exact text_leaf.
Qed.
Lemma stream_join x y : is_text x = true -> is_text y = true -> stream (join x y) = stream x ++ stream y.
Proof.
  destruct x as [dx tx], y as [dy ty]. unfold is_text, join. cbn [t_type t_data t_kids stream n_t set_n_literal n_literal]. intros Hx Hy. cbn [stream]. change (n_t (set_n_literal (Some (lit_of dx ++ lit_of dy)) dx)) with (n_t dx). unfold t_type in *. cbn [t_data] in *. rewrite Hx, Hy. cbn [n_literal set_n_literal]. rewrite map_app. reflexivity.
Qed.
Lemma stream_merge ts : flat_map stream (merge ts) = flat_map stream ts.
Proof.
  induction ts as [|x r IH]; [reflexivity|]. cbn [merge flat_map]. rewrite <- IH. destruct (merge r) as [|y m]; [reflexivity|]. destruct (is_text x && is_text y) eqn:E; [|reflexivity]. apply andb_true_iff in E as [E1 E2]. cbn [flat_map]. rewrite (stream_join x y E1 E2), app_assoc. reflexivity.
Qed.
Lemma stream_norm : forall t, stream (norm t) = stream t.
Proof.
  induction t as [d ts IH] using tree_rect'. cbn [norm]. destruct (is_container (n_t d)) eqn:Ec; [|reflexivity]. cbn [stream]. rewrite Ec. destruct (ntype_eqb (n_t d) text); [reflexivity|]. rewrite stream_merge. do 2 f_equal.
  induction IH as [|x r Hx Hr IHr]; [reflexivity|]. cbn [map flat_map]. rewrite Hx, IHr. reflexivity.
Qed.

(** ** On linked nodes *)
Lemma stands_frame h k h' k' : forall t y, stands h k y t -> (forall z, under k y z -> c_data (h' z) = c_data (h z) /\ k' z = k z) -> stands h' k' y t.
Proof.
  induction t as [d ts IH] using tree_rect'. intros y Hs Hz. apply stands_inv in Hs as [-> Hk]. destruct (Hz y (or_introl eq_refl)) as [E1 E2]. rewrite <- E1. constructor. rewrite E2.
  assert (Hz' : forall x, In x (k y) -> forall z, under k x z -> c_data (h' z) = c_data (h z) /\ k' z = k z). { intros x Hx z Hu. apply Hz. right. apply (under_kid k y x z Hx Hu). }
  clear Hz E1 E2. induction Hk as [|x t l ts Hx Hk IHk]; [constructor|]. inversion IH as [|? ? I1 I2]; subst. constructor; [apply I1; [exact Hx|apply Hz'; left; reflexivity]|apply IHk; [exact I2|]]. intros w Hw. apply Hz'. right. exact Hw.
Qed.
Lemma loop_none f root e prev h : normalize_loop f root (NW None e) prev h = Ok h.
Proof. destruct f; reflexivity. Qed.
Lemma loop_cur f root a e prev h : normalize_loop (S f) root (NW (Some a) e) prev h =
  (let* (prev', h') := normalize_step prev a h in
   normalize_loop f root (if e && is_container (n_t (c_data (h a))) then match c_first (h a) with Some x => NW (Some x) true | None => NW (Some a) false end else after h root a) prev' h').
Proof.
  cbn [normalize_loop walker_next w_current w_entering]. destruct (normalize_step prev a h) as [[prev' h']|]; [|reflexivity]. cbn [bind]. destruct (e && is_container _); [reflexivity|]. unfold after. destruct (Nat.eqb a root); [|reflexivity]. rewrite !loop_none. reflexivity.
Qed.
Definition text_at (h : heap) (a : addr) : bool := ntype_eqb (n_t (c_data (h a))) text.
Lemma step_keep prev a h : match prev with Some p => text_at h p && text_at h a = false | None => True end -> normalize_step prev a h = Ok (Some a, h).
Proof. unfold normalize_step. destruct prev as [p|]; [|reflexivity]. unfold text_at. intros ->. reflexivity. Qed.

(** what a run over the subtree of [a] leaves alone *)
Record inside (h : heap) (k : kids_map) (a : addr) (h' : heap) (k' : kids_map) : Prop := {
  in_out : forall x, ~ under k a x -> h' x = h x;
  in_self : c_data (h' a) = c_data (h a) /\ c_parent (h' a) = c_parent (h a) /\ c_prv (h' a) = c_prv (h a) /\ c_nxt (h' a) = c_nxt (h a);
  in_kids : forall x, ~ under k a x -> k' x = k x;
  in_below : forall x, below k' a x -> below k a x }.
Lemma inside_refl h k a : inside h k a h k.
Proof. constructor; auto. Qed.
Lemma under_in k a x b : under k a x -> (forall y, below k b y -> y <> x) -> In a (k b) -> False.
Proof. intros H1 H2 H3. apply (H2 x); [|reflexivity]. apply (under_kid k b a x H3 H1). Qed.
Lemma after_frame h h' root a : c_parent (h' a) = c_parent (h a) -> c_nxt (h' a) = c_nxt (h a) -> after h' root a = after h root a.
Proof. unfold after. intros -> ->. reflexivity. Qed.

Definition sub_ok (root : addr) (t : tree) : Prop := forall h k a prev,
  forest h k -> stands h k a t -> ~ below k a root -> texts_filled t ->
  match prev with Some p => text_at h p && text_at h a = false | None => True end ->
  exists n h' k', (forall f, normalize_loop (n + f) root (NW (Some a) true) prev h = normalize_loop f root (after h root a) (Some a) h') /\
    forest h' k' /\ stands h' k' a (norm t) /\ inside h k a h' k'.

Lemma forall2_app_inv {A B} (R : A -> B -> Prop) l1 l2 m1 m2 : Forall2 R (l1 ++ l2) (m1 ++ m2) -> length l1 = length m1 -> Forall2 R l1 m1 /\ Forall2 R l2 m2.
Proof.
  revert m1. induction l1 as [|x l1 IH]; intros [|y m1] H E; try discriminate; [split; [constructor|exact H]|]. cbn [app] in H. inversion H; subst. destruct (IH m1) as [I1 I2]; [assumption|cbn in E; lia|]. split; [constructor; assumption|exact I2].
Qed.
Lemma apart_snoc ts x : apart ts -> match last_opt ts with Some y => is_text y && is_text x = false | None => True end -> apart (ts ++ [x]).
Proof.
  induction ts as [|y ts IH]; [intros _ _; split; exact I|]. intros [H1 H2] H. cbn [app apart]. split.
  - destruct ts as [|z ts]; [|exact H1]. cbn [app]. cbn in H. intros [E1 E2]. apply is_text_eq in E1. apply is_text_eq in E2. rewrite E1, E2 in H. discriminate.
  - destruct ts as [|z ts]; [split; exact I|]. apply IH; [exact H2|]. exact H.
Qed.
Lemma apart_types ts : forall ts', apart ts -> map t_type ts' = map t_type ts -> apart ts'.
Proof.
  induction ts as [|x ts IH]; intros [|x' ts'] H E; try discriminate; [exact I|]. injection E as E1 E2. destruct H as [H1 H2]. split; [|apply IH; assumption]. destruct ts as [|y ts], ts' as [|y' ts']; try discriminate; [exact I|]. injection E2 as E2 _. rewrite E1, E2. exact H1.
Qed.
Lemma upd_data_links h k p f : (forall c, c_parent (f c) = c_parent c /\ c_first (f c) = c_first c /\ c_last (f c) = c_last c /\ c_prv (f c) = c_prv c /\ c_nxt (f c) = c_nxt c) -> links h k -> links (upd h p f) k.
Proof.
  intros Hf L. assert (E : forall x, c_parent (upd h p f x) = c_parent (h x) /\ c_first (upd h p f x) = c_first (h x) /\ c_last (upd h p f x) = c_last (h x) /\ c_prv (upd h p f x) = c_prv (h x) /\ c_nxt (upd h p f x) = c_nxt (h x)).
  { intros x. unfold upd. destruct (Nat.eqb_spec x p); [subst; apply Hf|auto]. }
  destruct L as [L1 L2 L3 L4 L5 L6]. constructor; intros.
  - rewrite (proj1 (proj2 (E a))). apply L1.
  - rewrite (proj1 (proj2 (proj2 (E a)))). apply L2.
  - destruct (E x) as (-> & _ & _ & -> & ->). eauto.
  - rewrite (proj1 (E x)) in *. eauto.
  - destruct (E x) as (Ex & _ & _ & -> & ->). apply L5. rewrite <- Ex. assumption.
  - apply L6.
Qed.
Lemma pos_same h k h' k' y : links h k -> links h' k' -> (forall q, In y (k q) -> k' q = k q) -> (forall q, In y (k' q) -> In y (k q)) ->
  c_parent (h' y) = c_parent (h y) /\ c_prv (h' y) = c_prv (h y) /\ c_nxt (h' y) = c_nxt (h y).
Proof.
  intros L L' H1 H2. destruct (c_parent (h y)) as [q|] eqn:E.
  - apply (lk_parent _ _ L) in E. pose proof (H1 q E) as Ek. apply in_split in E as (l1 & l2 & E). pose proof E as E'. rewrite <- Ek in E'. apply (lk_kid _ _ L) in E as (E1 & E2 & E3). apply (lk_kid _ _ L') in E' as (E1' & E2' & E3'). split; [congruence|]. split; congruence.
  - assert (E' : c_parent (h' y) = None). { destruct (c_parent (h' y)) as [q|] eqn:E'; [|reflexivity]. apply (lk_parent _ _ L') in E'. apply H2 in E'. apply in_split in E' as (l1 & l2 & E'). apply (lk_kid _ _ L) in E' as (E' & _). congruence. }
    destruct (lk_root _ _ L y E) as [-> ->]. destruct (lk_root _ _ L' y E') as [-> ->]. auto.
Qed.
Lemma cell_same h k h' k' y : links h k -> links h' k' -> (forall q, In y (k q) -> k' q = k q) -> (forall q, In y (k' q) -> In y (k q)) ->
  c_data (h' y) = c_data (h y) -> k' y = k y -> h' y = h y.
Proof.
  intros L L' H1 H2 D K. destruct (pos_same h k h' k' y L L' H1 H2) as (E1 & E2 & E3). pose proof (lk_first _ _ L y) as F1. pose proof (lk_first _ _ L' y) as F1'. pose proof (lk_last _ _ L y) as F2. pose proof (lk_last _ _ L' y) as F2'. rewrite K in *.
  destruct (h y), (h' y). cbn in *. congruence.
Qed.
Lemma step_merge h k a dn p x todo : forest h k -> k a = (dn ++ [p]) ++ x :: todo -> text_at h p = true -> text_at h x = true ->
  forall u v, n_literal (c_data (h p)) = Some u -> n_literal (c_data (h x)) = Some v ->
  exists h', normalize_step (Some p) x h = Ok (Some p, h') /\ forest h' (fun y => take_out x (k y)) /\ inside h k a h' (fun y => take_out x (k y)) /\
    (forall y, y <> p -> c_data (h' y) = c_data (h y)) /\ c_data (h' p) = set_n_literal (Some (u ++ v)) (c_data (h p)).
Proof.
  intros Hf Ek Hp Hx u v Eu Ev. pose (f := fun c => set_c_data (set_n_literal (Some (u ++ v)) (c_data c)) c). exists (unlink x (upd h p f)). split.
  - unfold normalize_step. unfold text_at in Hp, Hx. rewrite Hp, Hx. cbn [andb]. rewrite Eu, Ev. reflexivity.
  - assert (F1 : forest (upd h p f) k) by (split; [apply upd_data_links; [intros c; cbn; auto|apply Hf]|apply Hf]).
    destruct (unlink_forest (upd h p f) k x F1) as [F2 D]. cbn [op_kids] in F2.
    assert (Hxa : In x (k a)) by (rewrite Ek; apply in_app_mid). assert (Hpa : In p (k a)) by (rewrite Ek, <- app_assoc; apply in_app_mid).
    assert (Hone : forall q, q <> a -> take_out x (k q) = k q) by (intros q Hq; apply take_out_none; intros X; apply Hq; apply (links_one h k x a q (proj1 Hf) Hxa X)).
    assert (D' : forall y, y <> p -> c_data (unlink x (upd h p f) y) = c_data (h y)) by (intros y Hy; rewrite D, upd_other by exact Hy; reflexivity).
    split; [exact F2|]. split; [|split; [exact D'|rewrite D, upd_same; reflexivity]].
    assert (Ha : a <> p) by (intros ->; apply (proj2 Hf p), below_kid, Hpa).
    constructor.
    + intros y Hy. assert (y <> p) by (intros ->; apply Hy; right; apply below_kid, Hpa). apply (cell_same h k _ (fun y => take_out x (k y))); [apply Hf|apply F2| | |apply D'; assumption|apply Hone].
      * intros q Hq. apply Hone. intros ->. apply Hy. right. apply below_kid, Hq.
      * intros q Hq. apply take_out_in in Hq. tauto.
      * intros ->. apply Hy. left. reflexivity.
    + split; [apply D', Ha|]. apply (pos_same h k _ _ a (proj1 Hf) (proj1 F2)).
      * intros q Hq. apply Hone. intros ->. apply (proj2 Hf a), below_kid, Hq.
      * intros q Hq. apply take_out_in in Hq. tauto.
    + intros y Hy. apply Hone. intros ->. apply Hy. left. reflexivity.
    + intros y Hy. apply (below_sub k) in Hy; [exact Hy|]. intros q z Hq. apply take_out_in in Hq. tauto.
Qed.
Lemma inside_trans h k a h1 k1 h2 k2 : inside h k a h1 k1 -> inside h1 k1 a h2 k2 -> inside h k a h2 k2.
Proof.
  intros [A1 (A2 & A3 & A4 & A5) A6 A7] [B1 (B2 & B3 & B4 & B5) B6 B7]. assert (Hu : forall x, ~ under k a x -> ~ under k1 a x) by (intros x Hx [->|Hy]; apply Hx; [left; reflexivity|right; apply A7, Hy]). constructor.
  - intros x Hx. rewrite B1 by (apply Hu, Hx). apply A1, Hx.
  - rewrite B2, B3, B4, B5. auto.
  - intros x Hx. rewrite B6 by (apply Hu, Hx). apply A6, Hx.
  - intros x Hx. apply A7, B7, Hx.
Qed.
(** a run inside a child is a run inside the parent *)
Lemma inside_kid h k a x h' k' : forest h k -> forest h' k' -> In x (k a) -> inside h k x h' k' -> inside h k a h' k' /\ k' a = k a.
Proof.
  intros Hf Hf' Hx [A1 (A2 & A3 & A4 & A5) A6 A7].
  assert (Hu : forall y, ~ under k a y -> ~ under k x y) by (intros y Hy Hz; apply Hy; right; apply (under_kid k a x y Hx Hz)).
  assert (Ha : ~ under k x a) by (intros H; apply (proj2 Hf a), (under_kid k a x a Hx H)).
  split; [|apply A6, Ha]. constructor.
  - intros y Hy. apply A1, Hu, Hy.
  - rewrite (A1 a Ha). auto.
  - intros y Hy. apply A6, Hu, Hy.
  - intros y Hy. apply below_kid_under in Hy as (z & Hz & Hy). rewrite (A6 a Ha) in Hz. destruct (Nat.eq_dec z x) as [->|Hzx].
    + apply (under_kid k a x y Hx). destruct Hy as [->|Hy]; [left; reflexivity|right; apply A7, Hy].
    + (* below another child nothing changed *)
      assert (forall w, under k' z w -> under k z w) as Hw; [|apply (under_kid k a z y Hz), Hw, Hy].
      intros w [->|Hw]; [left; reflexivity|right]. induction Hw as [z w Hw|z b w Hb IH Hw].
      * apply below_kid. rewrite A6 in Hw; [exact Hw|]. intros H. apply Hzx. apply (siblings_apart h k a z x z Hf Hz Hx (or_introl eq_refl) H).
      * apply (below_step k z b w); [apply IH; [exact Hz|exact Hy|exact Hzx]|]. rewrite A6 in Hw; [exact Hw|]. intros H. apply Hzx. apply (siblings_apart h k a z x b Hf Hz Hx); [right; apply IH; [exact Hz|exact Hy|exact Hzx]|exact H].
Qed.
Lemma stands_data h k a t : stands h k a t -> t_data t = c_data (h a).
Proof. intros H. destruct t. apply stands_inv in H as [-> _]. reflexivity. Qed.
Lemma stands_text h k a t : stands h k a t -> is_text t = text_at h a.
Proof. intros H. unfold is_text, text_at, t_type. rewrite (stands_data h k a t H). reflexivity. Qed.
Lemma filled_norm t : texts_filled t -> is_text t = true -> exists l, n_literal (t_data t) = Some l.
Proof. intros [d ts H _] Ht. apply is_text_eq in Ht. cbn [t_data]. destruct (n_literal d) as [l|]; [exists l; reflexivity|]. destruct (H Ht). reflexivity. Qed.
Lemma last_opt_map2 {A B} (R : A -> B -> Prop) l m x : Forall2 R l m -> last_opt l = Some x -> exists y, last_opt m = Some y /\ R x y.
Proof.
  intros H. induction H as [|a b l m Hab H IH]; [discriminate|]. destruct H as [|a' b' l m Hab' H]; [cbn; intros [= <-]; exists b; auto|]. intros E. apply IH. exact E.
Qed.
Lemma last_opt_none2 {A B} (R : A -> B -> Prop) l m : Forall2 R l m -> last_opt l = None -> last_opt m = None.
Proof. intros H E. apply last_opt_nil in E. subst. inversion H. reflexivity. Qed.
Lemma kids_ok root a : forall tts, Forall (sub_ok root) tts -> Forall texts_filled tts -> forall todo h k dn dts p,
  forest h k -> ~ below k a root -> is_container (n_t (c_data (h a))) = true -> k a = dn ++ todo -> Forall2 (stands h k) dn dts -> Forall2 (stands h k) todo tts -> apart dts -> (forall t, In t dts -> is_text t = true -> exists l, n_literal (t_data t) = Some l) ->
  (dn = [] /\ p = a \/ last_opt dn = Some p) ->
  exists n h' k' q, (forall f, normalize_loop (n + f) root (match hd_error todo with Some x => NW (Some x) true | None => NW (Some a) false end) (Some p) h = normalize_loop f root (NW (Some a) false) (Some q) h') /\
    forest h' k' /\ Forall2 (stands h' k') (k' a) (merge (dts ++ map norm tts)) /\ inside h k a h' k'.
Proof.
  induction tts as [|tx tts IH]; intros Hsub Hfill todo h k dn dts p Hf Hr Hc Ek Hdn Htd Hap Hlit Hp.
  - inversion Htd; subst. exists 0, h, k, p. cbn [hd_error Nat.add map]. rewrite app_nil_r in *. rewrite Ek, (merge_apart dts Hap). split; [reflexivity|]. split; [exact Hf|]. split; [exact Hdn|apply inside_refl].
  - inversion Htd as [|x ? todo' ? Hx Htd']; subst. inversion Hsub as [|? ? S1 S2]; subst. inversion Hfill as [|? ? F1 F2]; subst. cbn [hd_error map].
    assert (Hxa : In x (k a)) by (rewrite Ek; apply in_app_mid).
    assert (Ea : after h root x = match hd_error todo' with Some x => NW (Some x) true | None => NW (Some a) false end).
    { unfold after. destruct (Nat.eqb_spec x root) as [->|_]; [destruct Hr; apply below_kid, Hxa|]. destruct (lk_kid _ _ (proj1 Hf) a dn x todo' Ek) as (P1 & _ & P3). rewrite P1, P3. destruct todo'; reflexivity. }
    pose proof (lk_nodup _ _ (proj1 Hf) a) as Nd. rewrite Ek in Nd.
    assert (Nd' := Nd). apply nodup_mid in Nd' as [Nx1 Nx2].
    destruct (text_at h p && text_at h x) eqn:Et.
    + (* two texts *)
      apply andb_true_iff in Et as [Etp Etx]. destruct Hp as [[-> ->]|Hp].
      { exfalso. unfold text_at in Etp. apply ntype_eqb_eq in Etp. rewrite Etp, text_leaf in Hc. discriminate. }
      apply last_opt_split in Hp as (dn0 & ->). apply Forall2_app_inv_l in Hdn as (dts0 & dtsp & Hdn0 & Hpt & ->). inversion Hpt as [|? tp ? ? Hpt' Hnil]; subst. inversion Hnil; subst. clear Hpt Hnil.
      assert (Ettp : is_text tp = true) by (rewrite (stands_text h k p tp Hpt'); exact Etp). assert (Ettx : is_text tx = true) by (rewrite (stands_text h k x tx Hx); exact Etx).
      destruct (Hlit tp) as (lp & Elp); [apply in_app_mid|exact Ettp|]. destruct (filled_norm tx F1 Ettx) as (lx & Elx). pose proof Elp as Elp'. pose proof Elx as Elx'. rewrite (stands_data h k p tp Hpt') in Elp. rewrite (stands_data h k x tx Hx) in Elx.
      destruct (step_merge h k a dn0 p x todo' Hf Ek Etp Etx lp lx Elp Elx) as (h1 & Es & Hf1 & Hin & D1 & D2). set (k1 := fun y => take_out x (k y)) in *.
      assert (Ek1 : k1 a = (dn0 ++ [p]) ++ todo') by (unfold k1; rewrite Ek; apply take_out_mid; assumption).
      assert (Hpa : In p (k a)) by (rewrite Ek, <- app_assoc; apply in_app_mid).
      assert (Hone : forall q, q <> a -> k1 q = k q) by (intros q Hq; apply take_out_none; intros X; apply Hq; apply (links_one h k x a q (proj1 Hf) Hxa X)).
      assert (Hfr : forall y ty, In y (k a) -> y <> p -> stands h k y ty -> stands h1 k1 y ty).
      { intros y ty Hy Hyp Hs. apply (stands_frame h k); [exact Hs|]. intros z Hz. split.
        - apply D1. intros ->. apply Hyp. apply (siblings_apart h k a y p p Hf Hy Hpa Hz (or_introl eq_refl)).
        - apply Hone. intros ->. apply (proj2 Hf a), (under_kid k a y a Hy Hz). }
      assert (Hpx : ~ In p todo' /\ ~ In p dn0). { rewrite <- app_assoc in Nd. cbn [app] in Nd. apply nodup_mid in Nd as [N1 N2]. split; [intros X; apply N2; right; exact X|exact N1]. }
      assert (Hjp : stands h1 k1 p (join tp tx)).
      { destruct tp as [dp kp]. unfold join. cbn [t_data t_kids]. apply stands_inv in Hpt' as [Edp Hkp]. cbn [t_data] in Elp'. replace (set_n_literal _ dp) with (c_data (h1 p)).
        2: { rewrite D2, Edp. do 2 f_equal. unfold lit_of. rewrite Elp, Elx'. reflexivity. }
        constructor. rewrite Hone by (intros ->; apply (proj2 Hf a), below_kid, Hpa).
        assert (Hq : forall y, In y (k p) -> forall ty, stands h k y ty -> stands h1 k1 y ty).
        { intros y Hy ty Hs. apply (stands_frame h k); [exact Hs|]. intros z Hz. split; [apply D1; intros ->; apply (proj2 Hf p), (under_kid k p y p Hy Hz)|]. apply Hone. intros ->. apply (proj2 Hf a). apply (below_trans k a p a); [apply below_kid, Hpa|apply (under_kid k p y a Hy Hz)]. }
        clear - Hkp Hq. induction Hkp as [|y t l m Hy Hkp IHk]; [constructor|]. constructor; [apply Hq; [left; reflexivity|exact Hy]|apply IHk; intros z Hz; apply Hq; right; exact Hz]. }
      assert (Hl2 : forall l m, incl l (k a) -> ~ In p l -> Forall2 (stands h k) l m -> Forall2 (stands h1 k1) l m).
      { intros l m Hi Hn H. induction H as [|y t l m Hy H IHl]; [constructor|]. constructor; [apply Hfr; [apply Hi; left; reflexivity|intros ->; apply Hn; left; reflexivity|exact Hy]|apply IHl; [intros z Hz; apply Hi; right; exact Hz|intros X; apply Hn; right; exact X]]. }
      assert (Hd1 : Forall2 (stands h1 k1) (dn0 ++ [p]) (dts0 ++ [join tp tx])).
      { apply Forall2_app; [|constructor; [exact Hjp|constructor]]. apply Hl2; [intros z Hz; rewrite Ek, <- app_assoc; apply in_or_app; left; exact Hz|tauto|exact Hdn0]. }
      assert (Ht1 : Forall2 (stands h1 k1) todo' tts) by (apply Hl2; [intros z Hz; rewrite Ek; apply in_or_app; right; right; exact Hz|tauto|exact Htd']).
      destruct (IH S2 F2 todo' h1 k1 (dn0 ++ [p]) (dts0 ++ [join tp tx]) p) as (n & h' & k' & q & E & Hf' & Hm & Hi'); try assumption.
      * intros X. apply Hr. apply (in_below _ _ _ _ _ Hin), X.
      * rewrite (proj1 (in_self _ _ _ _ _ Hin)). exact Hc.
      * apply (apart_types _ _ Hap). rewrite !map_app. reflexivity.
      * intros t Ht Htt. apply in_app_or in Ht as [Ht|[<-|[]]]; [apply Hlit; [apply in_or_app; left; exact Ht|exact Htt]|]. eexists. reflexivity.
      * right. apply last_opt_snoc'.
      * exists (S n), h', k', q. split; [|split; [exact Hf'|split; [|apply (inside_trans _ _ _ _ _ _ _ Hin Hi')]]].
        -- intros f. cbn [Nat.add]. rewrite loop_cur, Es. cbn [bind]. unfold text_at in Etx. apply ntype_eqb_eq in Etx. rewrite Etx, text_leaf. cbn [andb]. rewrite Ea. apply E.
        -- assert (En : norm tx = tx). { destruct tx as [d ts]. cbn [norm]. apply is_text_eq in Ettx. unfold t_type in Ettx. cbn [t_data] in Ettx. rewrite Ettx, text_leaf. reflexivity. }
           rewrite En. rewrite <- app_assoc. cbn [app]. rewrite merge_join by assumption. rewrite <- app_assoc in Hm. exact Hm.
    + destruct (S1 h k x (Some p) Hf Hx) as (n1 & h1 & k1 & E1 & Hf1 & Hx1 & Hin); [|exact F1|exact Et|].
      { intros X. apply Hr. apply (under_kid k a x root Hxa). right. exact X. }
      destruct (inside_kid h k a x h1 k1 Hf Hf1 Hxa Hin) as [Hin' Eka].
      assert (Hl2 : forall l m, incl l (k a) -> ~ In x l -> Forall2 (stands h k) l m -> Forall2 (stands h1 k1) l m).
      { intros l m Hi Hn H. induction H as [|y t l m Hy H IHl]; [constructor|]. constructor; [|apply IHl; [intros z Hz; apply Hi; right; exact Hz|intros X; apply Hn; right; exact X]].
        apply (stands_frame h k); [exact Hy|]. intros z Hz. assert (Hnz : ~ under k x z). { intros X. apply Hn. left. apply (siblings_apart h k a y x z Hf); [apply Hi; left; reflexivity|exact Hxa|exact Hz|exact X]. }
        split; [rewrite (in_out _ _ _ _ _ Hin z Hnz); reflexivity|apply (in_kids _ _ _ _ _ Hin z Hnz)]. }
      assert (Hna : ~ under k x a) by (intros X; apply (proj2 Hf a), (under_kid k a x a Hxa X)).
      assert (Hdn1 : Forall2 (stands h1 k1) dn dts) by (apply Hl2; [intros z Hz; rewrite Ek; apply in_or_app; left; exact Hz|exact Nx1|exact Hdn]).
      assert (Htd1 : Forall2 (stands h1 k1) todo' tts) by (apply Hl2; [intros z Hz; rewrite Ek; apply in_or_app; right; right; exact Hz|exact Nx2|exact Htd']).
      destruct (IH S2 F2 todo' h1 k1 (dn ++ [x]) (dts ++ [norm tx]) x) as (n & h' & k' & q & E & Hf' & Hm & Hi'); try assumption.
      * intros X. apply Hr. apply (in_below _ _ _ _ _ Hin'), X.
      * rewrite (proj1 (in_self _ _ _ _ _ Hin')). exact Hc.
      * rewrite Eka, Ek, <- app_assoc. reflexivity.
      * apply Forall2_app; [exact Hdn1|constructor; [exact Hx1|constructor]].
      * apply apart_snoc; [exact Hap|]. destruct (last_opt dn) as [p'|] eqn:El.
        -- destruct Hp as [[-> ->]|Hp]; [discriminate|]. injection Hp as ->. destruct (last_opt_map2 _ _ _ _ Hdn El) as (tp & -> & Htp). rewrite (stands_text h k p tp Htp). unfold is_text. rewrite norm_type. fold (is_text tx). rewrite (stands_text h k x tx Hx). exact Et.
        -- rewrite (last_opt_none2 _ _ _ Hdn El). exact I.
      * intros t Ht Htt. apply in_app_or in Ht as [Ht|[<-|[]]]; [apply Hlit; assumption|]. unfold is_text in Htt. rewrite norm_type in Htt. fold (is_text tx) in Htt. destruct (filled_norm tx F1 Htt) as (l & El). exists l. destruct tx as [d ts]. cbn [norm]. destruct (is_container (n_t d)); exact El.
      * right. apply last_opt_snoc'.
      * exists (n1 + n), h', k', q. split; [|split; [exact Hf'|split; [|apply (inside_trans _ _ _ _ _ _ _ Hin' Hi')]]].
        -- intros f. rewrite <- Nat.add_assoc, E1, Ea. apply E.
        -- rewrite <- app_assoc in Hm. exact Hm.
Qed.
Lemma filled_inv d ts : texts_filled (T d ts) -> Forall texts_filled ts.
Proof. intros H. inversion H; assumption. Qed.
Theorem sub_all root : forall t, sub_ok root t.
Proof.
  induction t as [d ts IH] using tree_rect'. intros h k a prev Hf Hs Hr Hfill Hp. pose proof Hs as Hs'. apply stands_inv in Hs as [-> Hk]. cbn [norm]. destruct (is_container (n_t (c_data (h a)))) eqn:Ec.
  - destruct (kids_ok root a ts IH (filled_inv _ _ Hfill) (k a) h k [] [] a Hf Hr Ec eq_refl (Forall2_nil _) Hk I) as (n & h' & k' & q & E & Hf' & Hm & Hin); [intros t []|left; auto|].
    exists (S (n + 1)), h', k'. split; [|split; [exact Hf'|split; [|exact Hin]]].
    + intros f. cbn [Nat.add]. rewrite loop_cur, (step_keep prev a h Hp). cbn [bind]. rewrite Ec. cbn [andb]. rewrite (lk_first _ _ (proj1 Hf)). rewrite <- Nat.add_assoc, E. cbn [Nat.add]. destruct (in_self _ _ _ _ _ Hin) as (D1 & D2 & D3 & D4). rewrite loop_cur, step_keep.
      * cbn [bind andb]. rewrite (after_frame h h' root a D2 D4). reflexivity.
      * unfold text_at. rewrite D1. destruct (ntype_eqb (n_t (c_data (h a))) text) eqn:Et; [|apply andb_false_r]. apply ntype_eqb_eq in Et. rewrite Et, text_leaf in Ec. discriminate.
    + rewrite <- (proj1 (in_self _ _ _ _ _ Hin)). constructor. exact Hm.
  - exists 1, h, k. split; [|split; [exact Hf|split; [exact Hs'|apply inside_refl]]]. intros f. cbn [Nat.add]. rewrite loop_cur, (step_keep prev a h Hp). cbn [bind]. rewrite Ec. reflexivity.
Qed.
Theorem normalize_norm h k root t : forest h k -> stands h k root t -> texts_filled t -> exists n h' k',
  (forall fuel, n <= fuel -> normalize fuel root h = Ok h') /\ forest h' k' /\ stands h' k' root (norm t) /\ inside h k root h' k'.
Proof.
  intros Hf Hs Hl. destruct (sub_all root t h k root None Hf Hs (proj2 Hf root) Hl I) as (n & h' & k' & E & H1 & H2 & H3). exists n, h', k'. split; [|auto].
  intros fuel Hn. replace fuel with (n + (fuel - n)) by lia. unfold normalize, new_walker. rewrite E. unfold after. rewrite Nat.eqb_refl. apply loop_none.
Qed.

(** ** Nothing to merge *)
Theorem keep_sub h k root : forest h k -> forall t a prev, settled t -> stands h k a t -> ~ below k a root ->
  match prev with Some p => text_at h p && text_at h a = false | None => True end ->
  exists n, forall f, normalize_loop (n + f) root (NW (Some a) true) prev h = normalize_loop f root (after h root a) (Some a) h.
Proof.
  intros Hf. induction t as [d ts IH] using tree_rect'. intros a prev Hset Hs Hr Hp. apply stands_inv in Hs as [-> Hk]. destruct (is_container (n_t (c_data (h a)))) eqn:Ec.
  2: { exists 1. intros f. cbn [Nat.add]. rewrite loop_cur, (step_keep prev a h Hp). cbn [bind]. rewrite Ec. reflexivity. }
  assert (Hna : text_at h a = false). { unfold text_at. destruct (ntype_eqb (n_t (c_data (h a))) text) eqn:Et; [|reflexivity]. apply ntype_eqb_eq in Et. rewrite Et, text_leaf in Ec. discriminate. }
  inversion Hset as [? ? Ec'|? ? Hap Hall]; subst; [rewrite Ec in Ec'; discriminate|].
  assert (Hl : forall l ts, Forall2 (stands h k) l ts -> apart ts -> Forall settled ts -> Forall (fun t => forall a prev, settled t -> stands h k a t -> ~ below k a root ->
      match prev with Some p => text_at h p && text_at h a = false | None => True end -> exists n, forall f, normalize_loop (n + f) root (NW (Some a) true) prev h = normalize_loop f root (after h root a) (Some a) h) ts ->
    forall l1 p, k a = l1 ++ l -> match ts with t :: _ => text_at h p && is_text t = false | [] => True end ->
    exists n q, forall f, normalize_loop (n + f) root (match hd_error l with Some x => NW (Some x) true | None => NW (Some a) false end) (Some p) h = normalize_loop f root (NW (Some a) false) (Some q) h).
  { clear IH Hk Hap Hall Hset ts prev Hp. induction 1 as [|x t l ts Hx Hk IHk]; intros Hap Hall IH l1 p El Hp; [exists 0, p; reflexivity|]. inversion IH as [|? ? I1 I2]; subst. inversion Hall; subst. destruct Hap as [Hap1 Hap2].
    assert (Hxa : In x (k a)) by (rewrite El; apply in_app_mid).
    assert (Ea : after h root x = match hd_error l with Some x => NW (Some x) true | None => NW (Some a) false end).
    { unfold after. destruct (Nat.eqb_spec x root) as [->|_]; [destruct Hr; apply below_kid, Hxa|]. destruct (lk_kid _ _ (proj1 Hf) a l1 x l El) as (P1 & _ & P3). rewrite P1, P3. destruct l; reflexivity. }
    destruct (I1 x (Some p)) as (n1 & E1); [assumption|exact Hx|intros X; apply Hr, (under_kid k a x root Hxa); right; exact X|rewrite <- (stands_text h k x t Hx); exact Hp|].
    destruct (IHk Hap2 ltac:(assumption) I2 (l1 ++ [x]) x) as (n2 & q & E2); [rewrite <- app_assoc; exact El| |].
    { destruct ts as [|t' ts]; [exact I|]. rewrite <- (stands_text h k x t Hx). destruct (is_text t && is_text t') eqn:Et; [|reflexivity]. apply andb_true_iff in Et as [E3 E4]. destruct Hap1. split; apply is_text_eq; assumption. }
    exists (n1 + n2), q. intros f. cbn [hd_error]. rewrite <- Nat.add_assoc, E1, Ea. apply E2. }
  destruct (Hl (k a) ts Hk Hap Hall IH [] a eq_refl) as (n & q & E); [destruct ts; [exact I|rewrite Hna; reflexivity]|].
  exists (S (n + 1)). intros f. cbn [Nat.add]. rewrite loop_cur, (step_keep prev a h Hp). cbn [bind]. rewrite Ec. cbn [andb]. rewrite (lk_first _ _ (proj1 Hf)), <- Nat.add_assoc, E. cbn [Nat.add]. rewrite loop_cur, step_keep by (rewrite Hna; apply andb_false_r). reflexivity.
Qed.
Theorem normalize_keep h k root t : forest h k -> stands h k root t -> settled t -> exists n, forall fuel, n <= fuel -> normalize fuel root h = Ok h.
Proof.
  intros Hf Hs Ht. destruct (keep_sub h k root Hf t root None Ht Hs (proj2 Hf root) I) as (n & E). exists n. intros fuel Hn. replace fuel with (n + (fuel - n)) by lia. unfold normalize, new_walker. rewrite E. unfold after. rewrite Nat.eqb_refl. apply loop_none.
Qed.
Theorem normalize_spec h k root t : forest h k -> stands h k root t -> texts_filled t -> exists h' k' t' n,
  (forall fuel, n <= fuel -> normalize fuel root h = Ok h') /\ (forall fuel, n <= fuel -> normalize fuel root h' = Ok h') /\
  forest h' k' /\ stands h' k' root t' /\ settled t' /\ stream t' = stream t /\ (forall x, ~ under k root x -> h' x = h x) /\
  c_parent (h' root) = c_parent (h root) /\ c_prv (h' root) = c_prv (h root) /\ c_nxt (h' root) = c_nxt (h root).
Proof.
  intros Hf Hs Hl. destruct (normalize_norm h k root t Hf Hs Hl) as (n & h' & k' & E & H1 & H2 & H3). destruct (normalize_keep h' k' root _ H1 H2 (norm_settled t)) as (m & E').
  exists h', k', (norm t), (Nat.max n m). split; [intros fuel Hn; apply E; lia|]. split; [intros fuel Hn; apply E'; lia|]. split; [exact H1|]. split; [exact H2|]. split; [apply norm_settled|]. split; [apply stream_norm|]. split; [apply (in_out _ _ _ _ _ H3)|]. apply (in_self _ _ _ _ _ H3).
Qed.
