(** * Induction on trees, facts about events *)
From Verif Require Import Base Regex Node SpecTree.

Section TreeInd.
  Variable P : tree -> Prop.
  Hypothesis H : forall d kids, Forall P kids -> P (T d kids).
  Fixpoint tree_ind' (t : tree) : P t :=
    match t with
    | T d kids =>
        H d kids ((fix go l : Forall P l :=
                     match l with
                     | [] => Forall_nil P
                     | x :: l' => Forall_cons x (tree_ind' x) (go l')
                     end) kids)
    end.
End TreeInd.

(** A property of the data of every node of a tree that a walker visits *)
Fixpoint tree_all (P : ndata -> Prop) (t : tree) : Prop :=
  match t with
  | T d kids => P d /\ (fix go l := match l with [] => True | x :: l' => tree_all P x /\ go l' end) kids
  end.
Lemma tree_all_unfold P d kids : tree_all P (T d kids) <-> P d /\ Forall (tree_all P) kids.
Proof.
  change (tree_all P (T d kids)) with
    (P d /\ (fix go l := match l with [] => True | x :: l' => tree_all P x /\ go l' end) kids).
  apply and_iff_compat_l. induction kids as [|x l IH]; [split; constructor|].
  rewrite IH, Forall_cons_iff. reflexivity.
Qed.
Lemma tree_all_impl (P Q : ndata -> Prop) : (forall d, P d -> Q d) -> forall t, tree_all P t -> tree_all Q t.
Proof.
  intros HPQ. induction t as [d kids IH] using tree_ind'. rewrite !tree_all_unfold. intros [Hd Hk].
  split; [auto|]. clear Hd. induction kids as [|x l IHl]; [constructor|].
  inversion IH; subst. inversion Hk; subst. constructor; auto.
Qed.

(** A property of every subtree *)
Fixpoint tree_every (P : tree -> Prop) (t : tree) : Prop :=
  match t with
  | T d kids => P t /\ (fix go l := match l with [] => True | x :: l' => tree_every P x /\ go l' end) kids
  end.
Lemma tree_every_unfold P d kids : tree_every P (T d kids) <-> P (T d kids) /\ Forall (tree_every P) kids.
Proof.
  change (tree_every P (T d kids)) with
    (P (T d kids) /\ (fix go l := match l with [] => True | x :: l' => tree_every P x /\ go l' end) kids).
  apply and_iff_compat_l. induction kids as [|x l IH]; [split; constructor|].
  rewrite IH, Forall_cons_iff. reflexivity.
Qed.
Lemma tree_every_impl (P Q : tree -> Prop) : (forall t, P t -> Q t) -> forall t, tree_every P t -> tree_every Q t.
Proof.
  intros HPQ. induction t as [d kids IH] using tree_ind'. rewrite !tree_every_unfold. intros [Hd Hk].
  split; [auto|]. clear Hd. induction kids as [|x l IHl]; [constructor|].
  inversion IH; subst. inversion Hk; subst. constructor; auto.
Qed.
Lemma tree_every_all P t : tree_every (fun t => P (t_data t)) t <-> tree_all P t.
Proof.
  induction t as [d kids IH] using tree_ind'. rewrite tree_every_unfold, tree_all_unfold. cbn [t_data].
  apply and_iff_compat_l. induction kids as [|x l IHl]; [split; constructor|].
  inversion IH; subst. rewrite !Forall_cons_iff. rewrite H1, IHl by auto. reflexivity.
Qed.
Lemma tree_every_and P Q t : tree_every (fun t => P t /\ Q t) t <-> tree_every P t /\ tree_every Q t.
Proof.
  induction t as [d kids IH] using tree_ind'. rewrite !tree_every_unfold.
  assert (H : Forall (tree_every (fun t => P t /\ Q t)) kids <-> Forall (tree_every P) kids /\ Forall (tree_every Q) kids).
  { induction kids as [|x l IHl]; [split; [intros _; split|]; constructor|].
    inversion IH; subst. rewrite !Forall_cons_iff. rewrite H1, IHl by auto. tauto. }
  rewrite H. tauto.
Qed.

Lemma tree_all_nodes P t : tree_all P t <-> forall d, In d (nodes t) -> P d.
Proof.
  induction t as [d kids IH] using tree_ind'. rewrite tree_all_unfold. cbn [nodes].
  assert (G : Forall (tree_all P) kids <-> forall x, In x (flat_map nodes kids) -> P x).
  { clear -IH. induction kids as [|x l IHl]; [split; [intros _ y []|constructor]|].
    inversion IH; subst. rewrite Forall_cons_iff, H1, IHl by auto. cbn [flat_map].
    split.
    - intros [A B] y Hy. apply in_app_or in Hy as [Hy|Hy]; auto.
    - intros A. split; intros y Hy; apply A, in_or_app; auto. }
  rewrite G. split.
  - intros [A B] x [<-|Hx]; auto.
  - intros A. split; [apply A; left; reflexivity|]. intros x Hx. apply A. right. exact Hx.
Qed.
Lemma tree_every_subtrees P t : tree_every P t <-> forall x, In x (subtrees t) -> P x.
Proof.
  induction t as [d kids IH] using tree_ind'. rewrite tree_every_unfold. cbn [subtrees].
  assert (G : Forall (tree_every P) kids <-> forall x, In x (flat_map subtrees kids) -> P x).
  { clear -IH. induction kids as [|x l IHl]; [split; [intros _ y []|constructor]|].
    inversion IH; subst. rewrite Forall_cons_iff, H1, IHl by auto. cbn [flat_map].
    split.
    - intros [A B] y Hy. apply in_app_or in Hy as [Hy|Hy]; auto.
    - intros A. split; intros y Hy; apply A, in_or_app; auto. }
  rewrite G. split.
  - intros [A B] x [<-|Hx]; auto.
  - intros A. split; [apply A; left; reflexivity|]. intros x Hx. apply A. right. exact Hx.
Qed.
