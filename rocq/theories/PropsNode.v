(** * Properties of node.py: C08, C09, C10, C11 *)
From Verif Require Import Base Regex Node Html Main Spec NodeHeap SpecHeap HeapFacts HeapWalk NormFacts NormHtml HeapBuild.

(** ** C09: the mutators *)
(** From any consistent forest, any sequence of operations that puts no node below or beside
    itself returns, the links say exactly what the list operations say, there is no cycle, and
    no data has changed. *)
Theorem C09_operations :
  forall l h k, forest h k -> ops_allowed l k ->
    exists h', run_ops l h = Ok h' /\ forest h' (ops_kids l k) /\ (forall x, c_data (h' x) = c_data (h x)).
Proof. exact ops_forest. Qed.
Print Assumptions C09_operations.
(** New nodes are a consistent forest. *)
Theorem C09_new_nodes : forall data, forest (new_nodes data) no_kids.
Proof. exact new_forest. Qed.
Print Assumptions C09_new_nodes.
(** A node without a parent has no place beside it: AttributeError. *)
Theorem C09_no_sibling_of_a_root :
  forall h k s c, forest h k -> s <> c -> c_parent (h s) = None ->
    insert_after s c h = Err AttributeError /\ insert_before s c h = Err AttributeError.
Proof. exact sibling_needs_parent. Qed.
Print Assumptions C09_no_sibling_of_a_root.

Definition sample_ops : list op := [OpAppend 0 1; OpPrepend 0 2; OpAfter 2 3; OpBefore 2 4; OpAppend 3 5; OpAppend 0 2; OpUnlink 4; OpAfter 5 4].
Example C09_case : ops_allowed sample_ops no_kids /\ map (ops_kids sample_ops no_kids) [0; 1; 2; 3; 4; 5] = [[3; 1; 2]; []; []; [5; 4]; []; []].
Proof.
  split; [|reflexivity]. cbn [ops_allowed sample_ops op_allowed]. repeat split; try discriminate; try (apply no_kids_below; reflexivity).
  all: try (exists 0; vm_compute; tauto). all: exists 3; vm_compute; tauto.
Qed.

(** ** C08: the walker *)
(** Over any finite tree of linked nodes the walker gives the events in document order, and stops. *)
Theorem C08_document_order :
  forall h k root t evs, forest h k -> stands h k root t -> doc_order h k root evs ->
    forall fuel, length evs <= fuel -> walk fuel h root (new_walker root) = Ok evs.
Proof. exact walk_total. Qed.
Print Assumptions C08_document_order.
(** Each node is entered once, each container is left once, and there are no other events. *)
Theorem C08_every_node_once :
  forall h k root t, forest h k -> stands h k root t -> bare_leaves h k root -> exists evs,
    (forall fuel, length evs <= fuel -> walk fuel h root (new_walker root) = Ok evs) /\ NoDup evs /\
    (forall x, In (x, true) evs <-> under k root x) /\
    (forall x, In (x, false) evs <-> under k root x /\ is_container (n_t (c_data (h x))) = true).
Proof. exact walk_once. Qed.
Print Assumptions C08_every_node_once.
(** These are the events of the tree on which the renderers' model runs, with the ancestors the
    renderers reach through the parent links. *)
Theorem C08_same_as_tree_walker :
  forall h k root t, forest h k -> stands h k root t -> exists evs,
    (forall fuel, length evs <= fuel -> walk fuel h root (new_walker root) = Ok evs) /\ Forall2 (describes h k root) evs (walker t).
Proof. exact walk_events. Qed.
Print Assumptions C08_same_as_tree_walker.
(** Every tree stands in some forest. *)
Theorem C08_every_tree_stands : forall t, exists h k root, forest h k /\ stands h k root t.
Proof. exact tree_built. Qed.
Print Assumptions C08_every_tree_stands.

Definition sample_types (a : addr) : ndata := new_node (match a with 0 => document | 1 | 2 => paragraph | 3 => emph | _ => text end) None.
Example C08_case :
  match run_ops [OpAppend 0 1; OpAppend 0 2; OpAppend 2 3; OpPrepend 2 4; OpAppend 3 5] (new_nodes sample_types) with
  | Ok h => walk 20 h 0 (new_walker 0) = Ok [(0, true); (1, true); (1, false); (2, true); (4, true); (3, true); (5, true); (3, false); (2, false); (0, false)] /\
            walk 20 h 3 (new_walker 3) = Ok [(3, true); (5, true); (3, false)]
  | Err _ => False
  end.
Proof. vm_compute. auto. Qed.

(** ** C10: normalize *)
(** For any finite tree of linked nodes whose texts have literals: the call returns, no two
    neighbours are texts any more, the content is the same, nodes elsewhere are as before, and a
    second call changes nothing. *)
Theorem C10_normalize :
  forall h k root t, forest h k -> stands h k root t -> texts_filled t -> exists h' k' t' n,
    (forall fuel, n <= fuel -> normalize fuel root h = Ok h') /\ (forall fuel, n <= fuel -> normalize fuel root h' = Ok h') /\
    forest h' k' /\ stands h' k' root t' /\ settled t' /\ stream t' = stream t /\ (forall x, ~ under k root x -> h' x = h x) /\
    c_parent (h' root) = c_parent (h root) /\ c_prv (h' root) = c_prv (h root) /\ c_nxt (h' root) = c_nxt (h root).
Proof. exact normalize_spec. Qed.
Print Assumptions C10_normalize.
(** Parsed documents have literals in their texts. *)
Theorem C10_parsed_texts : forall smart s t, Forall code_point s -> parse_doc smart s = Ok t -> texts_filled t.
Proof. exact parsed_filled. Qed.
Print Assumptions C10_parsed_texts.

Definition sample_text (l : str) : ndata := set_n_literal (Some l) (new_node text None).
Definition sample_data (a : addr) : ndata := match a with 0 => new_node paragraph None | 3 => new_node emph None | 1 => sample_text (u "a") | 2 => sample_text (u "b") | _ => sample_text (u "c") end.
Example C10_case :
  match (let* h := run_ops [OpAppend 0 1; OpAppend 0 2; OpAppend 0 5; OpAppend 0 3; OpAppend 0 4; OpAppend 3 6] (new_nodes sample_data) in normalize 30 0 h) with
  | Ok h => walk 20 h 0 (new_walker 0) = Ok [(0, true); (1, true); (3, true); (6, true); (3, false); (4, true); (0, false)] /\ n_literal (c_data (h 1)) = Some (u "abc")
  | Err _ => False
  end.
Proof. vm_compute. auto. Qed.

(** ** C11: normalize and rendering *)
(** True of the trees in which no text is just a line feed. *)
Theorem C11_same_html :
  forall o h k root t, forest h k -> stands h k root t -> texts_filled t -> no_lf t -> exists h' k' t' n,
    (forall fuel, n <= fuel -> normalize fuel root h = Ok h') /\ forest h' k' /\ stands h' k' root t' /\ render_html o t' = render_html o t.
Proof. exact normalize_html. Qed.
Print Assumptions C11_same_html.
(** False otherwise, even of parsed documents. *)
Theorem C11_same_html_refuted :
  exists s t h k root h' k' t', parse_doc false s = Ok t /\ forest h k /\ stands h k root t /\
    (exists n, forall fuel, n <= fuel -> normalize fuel root h = Ok h') /\ forest h' k' /\ stands h' k' root t' /\
    render_html default_opts t' <> render_html default_opts t.
Proof. exact normalize_lf. Qed.
Print Assumptions C11_same_html_refuted.

Example C11_case : no_lf (T (new_node document None) [T (new_node paragraph None) [T (sample_text (u "a")) []; T (sample_text []) []; T (sample_text (u "b")) []]]).
Proof. repeat constructor; cbn; try discriminate; intros _ [=]. Qed.
