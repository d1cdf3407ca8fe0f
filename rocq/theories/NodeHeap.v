(** * Model of node.py with its links: a heap of nodes *)
From Verif Require Import Base Regex Node.

(** Nodes are identified by an address.  node.py 71-95: a node is its data and five links. *)
Definition addr := nat.
Record cell := Cell {
  c_data : ndata;
  c_parent : option addr;
  c_first : option addr;
  c_last : option addr;
  c_prv : option addr;
  c_nxt : option addr }.
Definition set_c_data (v : ndata) (c : cell) : cell := Cell v (c_parent c) (c_first c) (c_last c) (c_prv c) (c_nxt c).
Definition set_c_parent (v : option addr) (c : cell) : cell := Cell (c_data c) v (c_first c) (c_last c) (c_prv c) (c_nxt c).
Definition set_c_first (v : option addr) (c : cell) : cell := Cell (c_data c) (c_parent c) v (c_last c) (c_prv c) (c_nxt c).
Definition set_c_last (v : option addr) (c : cell) : cell := Cell (c_data c) (c_parent c) (c_first c) v (c_prv c) (c_nxt c).
Definition set_c_prv (v : option addr) (c : cell) : cell := Cell (c_data c) (c_parent c) (c_first c) (c_last c) v (c_nxt c).
Definition set_c_nxt (v : option addr) (c : cell) : cell := Cell (c_data c) (c_parent c) (c_first c) (c_last c) (c_prv c) v.

(** All node objects; an object never created is a detached one. *)
Definition heap := addr -> cell.
Definition upd (h : heap) (a : addr) (f : cell -> cell) : heap :=
  fun x => if Nat.eqb x a then f (h x) else h x.

(** node.py 141-154: [unlink] *)
Definition unlink (self : addr) (h : heap) : heap :=
  let h1 := match c_prv (h self) with
            | Some p => upd h p (set_c_nxt (c_nxt (h self)))
            | None => match c_parent (h self) with
                      | Some q => upd h q (set_c_first (c_nxt (h self)))
                      | None => h
                      end
            end in
  let h2 := match c_nxt (h1 self) with
            | Some n => upd h1 n (set_c_prv (c_prv (h1 self)))
            | None => match c_parent (h1 self) with
                      | Some q => upd h1 q (set_c_last (c_prv (h1 self)))
                      | None => h1
                      end
            end in
  upd (upd (upd h2 self (set_c_parent None)) self (set_c_nxt None)) self (set_c_prv None).

(** node.py 119-128: [append_child] *)
Definition append_child (self child : addr) (h : heap) : heap :=
  let h1 := upd (unlink child h) child (set_c_parent (Some self)) in
  match c_last (h1 self) with
  | Some l =>
      let h2 := upd h1 l (set_c_nxt (Some child)) in
      let h3 := upd h2 child (set_c_prv (c_last (h2 self))) in
      upd h3 self (set_c_last (Some child))
  | None => upd (upd h1 self (set_c_first (Some child))) self (set_c_last (Some child))
  end.

(** node.py 130-139: [prepend_child] *)
Definition prepend_child (self child : addr) (h : heap) : heap :=
  let h1 := upd (unlink child h) child (set_c_parent (Some self)) in
  match c_first (h1 self) with
  | Some f =>
      let h2 := upd h1 f (set_c_prv (Some child)) in
      let h3 := upd h2 child (set_c_nxt (c_first (h2 self))) in
      upd h3 self (set_c_first (Some child))
  | None => upd (upd h1 self (set_c_first (Some child))) self (set_c_last (Some child))
  end.

(** node.py 156-165: [insert_after]; line 165 raises if there is no parent *)
Definition insert_after (self sibling : addr) (h : heap) : res heap :=
  let h0 := unlink sibling h in
  let h1 := upd h0 sibling (set_c_nxt (c_nxt (h0 self))) in
  let h2 := match c_nxt (h1 sibling) with
            | Some n => upd h1 n (set_c_prv (Some sibling))
            | None => h1
            end in
  let h3 := upd h2 sibling (set_c_prv (Some self)) in
  let h4 := upd h3 self (set_c_nxt (Some sibling)) in
  let h5 := upd h4 sibling (set_c_parent (c_parent (h4 self))) in
  match c_nxt (h5 sibling) with
  | Some _ => Ok h5
  | None => let* p := of_option AttributeError (c_parent (h5 sibling)) in
            Ok (upd h5 p (set_c_last (Some sibling)))
  end.

(** node.py 167-176: [insert_before] *)
Definition insert_before (self sibling : addr) (h : heap) : res heap :=
  let h0 := unlink sibling h in
  let h1 := upd h0 sibling (set_c_prv (c_prv (h0 self))) in
  let h2 := match c_prv (h1 sibling) with
            | Some n => upd h1 n (set_c_nxt (Some sibling))
            | None => h1
            end in
  let h3 := upd h2 sibling (set_c_nxt (Some self)) in
  let h4 := upd h3 self (set_c_prv (Some sibling)) in
  let h5 := upd h4 sibling (set_c_parent (c_parent (h4 self))) in
  match c_prv (h5 sibling) with
  | Some _ => Ok h5
  | None => let* p := of_option AttributeError (c_parent (h5 sibling)) in
            Ok (upd h5 p (set_c_first (Some sibling)))
  end.

(** The public methods, as operations *)
Inductive op :=
| OpAppend (self child : addr)
| OpPrepend (self child : addr)
| OpAfter (self sibling : addr)
| OpBefore (self sibling : addr)
| OpUnlink (self : addr).
Definition run_op (o : op) (h : heap) : res heap :=
  match o with
  | OpAppend a c => Ok (append_child a c h)
  | OpPrepend a c => Ok (prepend_child a c h)
  | OpAfter s c => insert_after s c h
  | OpBefore s c => insert_before s c h
  | OpUnlink c => Ok (unlink c h)
  end.
Fixpoint run_ops (l : list op) (h : heap) : res heap :=
  match l with [] => Ok h | o :: l' => let* h' := run_op o h in run_ops l' h' end.

(** ** The walker, node.py 16-68 *)
(** [current] and [entering]; [root] does not change *)
Record nwalker := NW { w_current : option addr; w_entering : bool }.
Definition new_walker (root : addr) : nwalker := NW (Some root) true.
(** node.py 23-48: [__next__]; None is StopIteration *)
Definition walker_next (h : heap) (root : addr) (w : nwalker) : option (addr * bool * nwalker) :=
  match w_current w with
  | None => None
  | Some cur =>
      let entering := w_entering w in
      let w' :=
        if entering && is_container (n_t (c_data (h cur)))
        then match c_first (h cur) with
             | Some f => NW (Some f) true
             | None => NW (Some cur) false
             end
        else if Nat.eqb cur root then NW None entering
        else match c_nxt (h cur) with
             | None => NW (c_parent (h cur)) false
             | Some n => NW (Some n) true
             end in
      Some (cur, entering, w')
  end.
(** node.py 52-53, a for loop over the walker that changes nothing: the events *)
Fixpoint walk (fuel : nat) (h : heap) (root : addr) (w : nwalker) : res (list (addr * bool)) :=
  match walker_next h root w with
  | None => Ok []
  | Some (x, e, w') =>
      match fuel with
      | O => Err OutOfFuel
      | S f => let* l := walk f h root w' in Ok ((x, e) :: l)
      end
  end.

(** ** node.py 104-114: [normalize] *)
(** One round of the loop; the literal None cannot be added *)
Definition normalize_step (prev : option addr) (curr : addr) (h : heap) : res (option addr * heap) :=
  match prev with
  | None => Ok (Some curr, h)
  | Some p =>
      if ntype_eqb (n_t (c_data (h p))) text && ntype_eqb (n_t (c_data (h curr))) text
      then
        let* a := of_option TypeError (n_literal (c_data (h p))) in
        let* b := of_option TypeError (n_literal (c_data (h curr))) in
        let h1 := upd h p (fun c => set_c_data (set_n_literal (Some (a ++ b)) (c_data c)) c) in
        Ok (prev, unlink curr h1)
      else Ok (Some curr, h)
  end.
Fixpoint normalize_loop (fuel : nat) (root : addr) (w : nwalker) (prev : option addr) (h : heap) : res heap :=
  match walker_next h root w with
  | None => Ok h
  | Some (curr, _, w') =>
      match fuel with
      | O => Err OutOfFuel
      | S f => let* (prev', h') := normalize_step prev curr h in normalize_loop f root w' prev' h'
      end
  end.
Definition normalize (fuel : nat) (root : addr) (h : heap) : res heap :=
  normalize_loop fuel root (new_walker root) None h.
