(** * Vocabulary for statements about trees *)
From Verif Require Import Base Node.

(** The data of all nodes of a tree, in document order *)
Fixpoint nodes (t : tree) : list ndata :=
  match t with T d kids => d :: flat_map nodes kids end.
(** All subtrees *)
Fixpoint subtrees (t : tree) : list tree :=
  match t with T d kids => t :: flat_map subtrees kids end.

(** A tree without custom nodes (a user can make them, the parser never does) whose headings
    have levels 1 to 6 *)
Definition standard_node (d : ndata) : Prop :=
  n_t d <> custom_inline /\ n_t d <> custom_block /\
  (n_t d = heading -> exists n, n_level d = Some n /\ 1 <= n <= 6).

(** The literal of a raw HTML node of the tree *)
Definition raw_literal (t : tree) (s : str) : Prop :=
  exists d, In d (nodes t) /\ (n_t d = html_inline \/ n_t d = html_block) /\ n_literal d = Some s.

(** ** Writing inlines back as characters (C28)
    Text is its characters; an emph node is one delimiter character, its content and the same
    character again; a strong node has two on each side; any other node stands for itself. *)
Inductive tok := TChar (c : N) | TNode (t : tree).
Inductive writes : tree -> list tok -> Prop :=
| w_text d kids l : n_t d = text -> n_literal d = Some l -> writes (T d kids) (map TChar l)
| w_emph d kids c w : n_t d = emph -> c = 42%N \/ c = 95%N -> writes_all kids w ->
    writes (T d kids) ([TChar c] ++ w ++ [TChar c])
| w_strong d kids c w : n_t d = strong -> c = 42%N \/ c = 95%N -> writes_all kids w ->
    writes (T d kids) ([TChar c; TChar c] ++ w ++ [TChar c; TChar c])
| w_other t : t_type t <> text -> t_type t <> emph -> t_type t <> strong -> writes t [TNode t]
with writes_all : list tree -> list tok -> Prop :=
| w_nil : writes_all [] []
| w_cons t ts w ws : writes t w -> writes_all ts ws -> writes_all (t :: ts) (w ++ ws).
(** Equal, except that a typographic quote may have been turned round *)
Inductive same_tok : tok -> tok -> Prop :=
| st_eq a : same_tok a a
| st_single a b : In a [8216; 8217]%N -> In b [8216; 8217]%N -> same_tok (TChar a) (TChar b)
| st_double a b : In a [8220; 8221]%N -> In b [8220; 8221]%N -> same_tok (TChar a) (TChar b).

(** ** The strings stored in a node (C14, C23) *)
Definition node_strings (d : ndata) : list str :=
  flat_map (fun o => match o with Some s => [s] | None => [] end)
    [n_string_content d; n_literal d; n_info d; n_destination d; n_title d; n_on_enter d; n_on_exit d].

(** ** Block structure (C12, C13, C35) *)
(** Which block may be a child of which *)
Definition block_holds (parent child : ntype) : bool :=
  match parent, child with
  | (document | block_quote | item), (block_quote | list_ | heading | thematic_break | code_block | html_block | paragraph) => true
  | list_, item => true
  | _, _ => false
  end.
Definition inline_type (t : ntype) : bool :=
  match t with
  | text | softbreak | linebreak | code | html_inline | emph | strong | link | image => true
  | _ => false
  end.
(** Which node may be a child of which in a document *)
Definition may_hold (parent child : ntype) : bool :=
  match parent with
  | paragraph | heading | emph | strong | link | image => inline_type child
  | _ => block_holds parent child
  end.
(** First and last line of a block *)
Definition first_line (d : ndata) : nat := match n_sourcepos d with Some (l, _, _) => l | None => 0 end.
Definition last_line (d : ndata) : nat := match n_sourcepos d with Some (_, _, (e, _)) => e | None => 0 end.

(** ** A document that is one paragraph of text (C19, C20, C29) *)
Definition paragraph_of_text (t : tree) (s : str) : Prop :=
  exists dd pd ks, t = T dd [T pd ks] /\ n_t dd = document /\ n_t pd = paragraph /\
    (forall k, In k ks -> n_t (t_data k) = text /\ t_kids k = []) /\
    flat_map (fun k => match n_literal (t_data k) with Some l => l | None => [] end) ks = s.
