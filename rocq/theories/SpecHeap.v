(** * Specification of linked nodes: C08, C09, C10 *)
From Verif Require Import Base Node NodeHeap.

(** ** Children lists *)
(** What the links are meant to say: the list of children of every node. *)
Definition kids_map := addr -> list addr.
(** The links of [h] say exactly [k]. *)
Record links (h : heap) (k : kids_map) : Prop := {
  lk_first : forall a, c_first (h a) = hd_error (k a);
  lk_last : forall a, c_last (h a) = last_opt (k a);
  lk_kid : forall a l1 x l2, k a = l1 ++ x :: l2 ->
    c_parent (h x) = Some a /\ c_prv (h x) = last_opt l1 /\ c_nxt (h x) = hd_error l2;
  lk_parent : forall x a, c_parent (h x) = Some a -> In x (k a);
  lk_root : forall x, c_parent (h x) = None -> c_prv (h x) = None /\ c_nxt (h x) = None;
  lk_nodup : forall a, NoDup (k a) }.
(** [b] is below [a] *)
Inductive below (k : kids_map) : addr -> addr -> Prop :=
| below_kid a b : In b (k a) -> below k a b
| below_step a b c : below k a b -> In c (k b) -> below k a c.
(** The links are consistent and no node is below itself. *)
Definition forest (h : heap) (k : kids_map) : Prop := links h k /\ forall x, ~ below k x x.

(** ** The operations on children lists *)
Definition take_out (c : addr) (l : list addr) : list addr := filter (fun x => negb (Nat.eqb x c)) l.
Definition put_after (s c : addr) (l : list addr) : list addr := flat_map (fun x => if Nat.eqb x s then [x; c] else [x]) l.
Definition put_before (s c : addr) (l : list addr) : list addr := flat_map (fun x => if Nat.eqb x s then [c; x] else [x]) l.
(** The new children lists: the moved node is taken out from where it was, then put in place. *)
Definition op_kids (o : op) (k : kids_map) : kids_map := fun x =>
  match o with
  | OpAppend a c => take_out c (k x) ++ (if Nat.eqb x a then [c] else [])
  | OpPrepend a c => (if Nat.eqb x a then [c] else []) ++ take_out c (k x)
  | OpAfter s c => put_after s c (take_out c (k x))
  | OpBefore s c => put_before s c (take_out c (k x))
  | OpUnlink c => take_out c (k x)
  end.
(** A node can be put anywhere but next to itself and below itself; and a sibling needs a parent. *)
Definition op_allowed (o : op) (k : kids_map) : Prop :=
  match o with
  | OpAppend a c | OpPrepend a c => a <> c /\ ~ below k c a
  | OpAfter s c | OpBefore s c => s <> c /\ ~ below k c s /\ exists p, In s (k p)
  | OpUnlink _ => True
  end.
Fixpoint ops_kids (l : list op) (k : kids_map) : kids_map := match l with [] => k | o :: l' => ops_kids l' (op_kids o k) end.
Fixpoint ops_allowed (l : list op) (k : kids_map) : Prop := match l with [] => True | o :: l' => op_allowed o k /\ ops_allowed l' (op_kids o k) end.

(** ** The events of a walk *)
(** [stands h k a t]: the node [a] is the root of the tree [t], read along the children lists *)
Inductive stands (h : heap) (k : kids_map) : addr -> tree -> Prop :=
| stands_node a ts : Forall2 (stands h k) (k a) ts -> stands h k a (T (c_data (h a)) ts).
(** document order: a container is entered, then its children, then it is left; another node is
    only entered *)
Inductive doc_order (h : heap) (k : kids_map) : addr -> list (addr * bool) -> Prop :=
| order_leaf a : is_container (n_t (c_data (h a))) = false -> doc_order h k a [(a, true)]
| order_node a ls : is_container (n_t (c_data (h a))) = true -> Forall2 (doc_order h k) (k a) ls ->
    doc_order h k a ((a, true) :: concat ls ++ [(a, false)]).

(** ** Reading the events *)
(** [x] is [a] or below it *)
Definition under (k : kids_map) (a x : addr) : Prop := x = a \/ below k a x.
(** nodes that cannot have children have none *)
Definition bare_leaves (h : heap) (k : kids_map) (a : addr) : Prop :=
  forall x, under k a x -> is_container (n_t (c_data (h x))) = false -> k x = [].
(** the data of the ancestors of [x] below and including [root], parent first, along the parent links *)
Inductive ancestors (h : heap) (root : addr) : addr -> list ndata -> Prop :=
| anc_root : ancestors h root root []
| anc_up x p l : x <> root -> c_parent (h x) = Some p -> ancestors h root p l -> ancestors h root x (c_data (h p) :: l).
(** [e] describes the event [ev] of the walker over nodes *)
Definition describes (h : heap) (k : kids_map) (root : addr) (ev : addr * bool) (e : event) : Prop :=
  stands h k (fst ev) (ev_node e) /\ snd ev = ev_entering e /\ ancestors h root (fst ev) (ev_anc e).

(** ** What [normalize] may change *)
(** The content of a tree in document order: the characters of its texts one by one, and the
    data of its other nodes when they are entered and left.  How texts are split does not show. *)
Definition token : Type := N + (ndata * bool).
Fixpoint stream (t : tree) : list token :=
  match t with
  | T d ts =>
      if ntype_eqb (n_t d) text then map inl (match n_literal d with Some l => l | None => [] end)
      else if is_container (n_t d) then inr (d, true) :: flat_map stream ts ++ [inr (d, false)]
      else [inr (d, true)]
  end.
(** No two neighbours are both texts. *)
Fixpoint apart (ts : list tree) : Prop :=
  match ts with
  | x :: r => (match r with y :: _ => ~ (t_type x = text /\ t_type y = text) | [] => True end) /\ apart r
  | [] => True
  end.
(** ... in any container of the tree *)
Inductive settled : tree -> Prop :=
| settled_leaf d ts : is_container (n_t d) = false -> settled (T d ts)
| settled_node d ts : apart ts -> Forall settled ts -> settled (T d ts).
(** Every text has a literal. *)
Inductive texts_filled : tree -> Prop :=
| filled d ts : (n_t d = text -> n_literal d <> None) -> Forall texts_filled ts -> texts_filled (T d ts).
(** No text is just a line feed. *)
Inductive no_lf : tree -> Prop :=
| no_lf_node d ts : (n_t d = text -> n_literal d <> Some [10%N]) -> Forall no_lf ts -> no_lf (T d ts).

(** ** New nodes *)
(** All nodes as the constructor leaves them: node [a] has the data [data a] and no links. *)
Definition new_nodes (data : addr -> ndata) : heap := fun a => Cell (data a) None None None None None.
Definition no_kids : kids_map := fun _ => [].
