(** * Model of node.py: node types, node data, trees, the walker's events

    A [Node] object has data fields and five link fields.  Here the links are replaced by
    an inductive tree; NodeHeap.v models the links themselves. *)
From Verif Require Import Base Regex.

(** The values of [node.t] the library creates or renders. *)
Inductive ntype :=
| document | block_quote | list_ | item | paragraph | heading | thematic_break
| code_block | html_block
| text | softbreak | linebreak | code | html_inline | emph | strong | link | image
| custom_inline | custom_block.

Definition ntype_eqb (a b : ntype) : bool :=
  match a, b with
  | document, document | block_quote, block_quote | list_, list_ | item, item
  | paragraph, paragraph | heading, heading | thematic_break, thematic_break
  | code_block, code_block | html_block, html_block | text, text | softbreak, softbreak
  | linebreak, linebreak | code, code | html_inline, html_inline | emph, emph
  | strong, strong | link, link | image, image | custom_inline, custom_inline
  | custom_block, custom_block => true
  | _, _ => false
  end.

(** The string in [node.t] *)
Definition type_name (t : ntype) : str :=
  match t with
  | document => u "document" | block_quote => u "block_quote" | list_ => u "list"
  | item => u "item" | paragraph => u "paragraph" | heading => u "heading"
  | thematic_break => u "thematic_break" | code_block => u "code_block"
  | html_block => u "html_block" | text => u "text" | softbreak => u "softbreak"
  | linebreak => u "linebreak" | code => u "code" | html_inline => u "html_inline"
  | emph => u "emph" | strong => u "strong" | link => u "link" | image => u "image"
  | custom_inline => u "custom_inline" | custom_block => u "custom_block"
  end.

(** node.py 6-9 *)
Definition reContainer : regex :=
  re_compile noflags (u "(document|block_quote|list|item|paragraph|" ++
                      u "heading|emph|strong|link|image|" ++
                      u "custom_inline|custom_block)").
(** node.py 12-13 *)
Definition is_container (t : ntype) : bool := re_test reContainer (type_name t).

(** The [list_data] dictionary, blocks.py 89-97.  [None] in [n_list_data] is the empty dict. *)
Inductive ltype := bullet | ordered.
Definition ltype_eqb (a b : ltype) : bool :=
  match a, b with bullet, bullet | ordered, ordered => true | _, _ => false end.
Record ldata := LD {
  ld_type : ltype;
  ld_tight : bool;
  ld_bullet_char : option N;
  ld_start : option N;
  ld_delimiter : option N;
  ld_padding : nat;
  ld_marker_offset : nat }.
Definition set_ld_tight (v : bool) (x : ldata) : ldata :=
  LD (ld_type x) v (ld_bullet_char x) (ld_start x) (ld_delimiter x) (ld_padding x) (ld_marker_offset x).

(** node.py 71-95: the data fields of [Node].  Strings that may be None are options.
    [n_html_block_type] is the attribute added in blocks.py 509. *)
Record ndata := ND {
  n_t : ntype;
  n_sourcepos : option (nat * nat * (nat * nat));
  n_last_line_blank : bool;
  n_last_line_checked : bool;
  n_is_open : bool;
  n_string_content : option str;
  n_literal : option str;
  n_list_data : option ldata;
  n_info : option str;
  n_destination : option str;
  n_title : option str;
  n_is_fenced : bool;
  n_fence_char : option N;
  n_fence_length : nat;
  n_fence_offset : option nat;
  n_level : option nat;
  n_on_enter : option str;
  n_on_exit : option str;
  n_html_block_type : option nat }.
Definition set_n_t (v : ntype) (x : ndata) : ndata := ND v (n_sourcepos x) (n_last_line_blank x) (n_last_line_checked x) (n_is_open x) (n_string_content x) (n_literal x) (n_list_data x) (n_info x) (n_destination x) (n_title x) (n_is_fenced x) (n_fence_char x) (n_fence_length x) (n_fence_offset x) (n_level x) (n_on_enter x) (n_on_exit x) (n_html_block_type x).
Definition set_n_sourcepos (v : option (nat * nat * (nat * nat))) (x : ndata) : ndata := ND (n_t x) v (n_last_line_blank x) (n_last_line_checked x) (n_is_open x) (n_string_content x) (n_literal x) (n_list_data x) (n_info x) (n_destination x) (n_title x) (n_is_fenced x) (n_fence_char x) (n_fence_length x) (n_fence_offset x) (n_level x) (n_on_enter x) (n_on_exit x) (n_html_block_type x).
Definition set_n_last_line_blank (v : bool) (x : ndata) : ndata := ND (n_t x) (n_sourcepos x) v (n_last_line_checked x) (n_is_open x) (n_string_content x) (n_literal x) (n_list_data x) (n_info x) (n_destination x) (n_title x) (n_is_fenced x) (n_fence_char x) (n_fence_length x) (n_fence_offset x) (n_level x) (n_on_enter x) (n_on_exit x) (n_html_block_type x).
Definition set_n_last_line_checked (v : bool) (x : ndata) : ndata := ND (n_t x) (n_sourcepos x) (n_last_line_blank x) v (n_is_open x) (n_string_content x) (n_literal x) (n_list_data x) (n_info x) (n_destination x) (n_title x) (n_is_fenced x) (n_fence_char x) (n_fence_length x) (n_fence_offset x) (n_level x) (n_on_enter x) (n_on_exit x) (n_html_block_type x).
Definition set_n_is_open (v : bool) (x : ndata) : ndata := ND (n_t x) (n_sourcepos x) (n_last_line_blank x) (n_last_line_checked x) v (n_string_content x) (n_literal x) (n_list_data x) (n_info x) (n_destination x) (n_title x) (n_is_fenced x) (n_fence_char x) (n_fence_length x) (n_fence_offset x) (n_level x) (n_on_enter x) (n_on_exit x) (n_html_block_type x).
Definition set_n_string_content (v : option str) (x : ndata) : ndata := ND (n_t x) (n_sourcepos x) (n_last_line_blank x) (n_last_line_checked x) (n_is_open x) v (n_literal x) (n_list_data x) (n_info x) (n_destination x) (n_title x) (n_is_fenced x) (n_fence_char x) (n_fence_length x) (n_fence_offset x) (n_level x) (n_on_enter x) (n_on_exit x) (n_html_block_type x).
Definition set_n_literal (v : option str) (x : ndata) : ndata := ND (n_t x) (n_sourcepos x) (n_last_line_blank x) (n_last_line_checked x) (n_is_open x) (n_string_content x) v (n_list_data x) (n_info x) (n_destination x) (n_title x) (n_is_fenced x) (n_fence_char x) (n_fence_length x) (n_fence_offset x) (n_level x) (n_on_enter x) (n_on_exit x) (n_html_block_type x).
Definition set_n_list_data (v : option ldata) (x : ndata) : ndata := ND (n_t x) (n_sourcepos x) (n_last_line_blank x) (n_last_line_checked x) (n_is_open x) (n_string_content x) (n_literal x) v (n_info x) (n_destination x) (n_title x) (n_is_fenced x) (n_fence_char x) (n_fence_length x) (n_fence_offset x) (n_level x) (n_on_enter x) (n_on_exit x) (n_html_block_type x).
Definition set_n_info (v : option str) (x : ndata) : ndata := ND (n_t x) (n_sourcepos x) (n_last_line_blank x) (n_last_line_checked x) (n_is_open x) (n_string_content x) (n_literal x) (n_list_data x) v (n_destination x) (n_title x) (n_is_fenced x) (n_fence_char x) (n_fence_length x) (n_fence_offset x) (n_level x) (n_on_enter x) (n_on_exit x) (n_html_block_type x).
Definition set_n_destination (v : option str) (x : ndata) : ndata := ND (n_t x) (n_sourcepos x) (n_last_line_blank x) (n_last_line_checked x) (n_is_open x) (n_string_content x) (n_literal x) (n_list_data x) (n_info x) v (n_title x) (n_is_fenced x) (n_fence_char x) (n_fence_length x) (n_fence_offset x) (n_level x) (n_on_enter x) (n_on_exit x) (n_html_block_type x).
Definition set_n_title (v : option str) (x : ndata) : ndata := ND (n_t x) (n_sourcepos x) (n_last_line_blank x) (n_last_line_checked x) (n_is_open x) (n_string_content x) (n_literal x) (n_list_data x) (n_info x) (n_destination x) v (n_is_fenced x) (n_fence_char x) (n_fence_length x) (n_fence_offset x) (n_level x) (n_on_enter x) (n_on_exit x) (n_html_block_type x).
Definition set_n_is_fenced (v : bool) (x : ndata) : ndata := ND (n_t x) (n_sourcepos x) (n_last_line_blank x) (n_last_line_checked x) (n_is_open x) (n_string_content x) (n_literal x) (n_list_data x) (n_info x) (n_destination x) (n_title x) v (n_fence_char x) (n_fence_length x) (n_fence_offset x) (n_level x) (n_on_enter x) (n_on_exit x) (n_html_block_type x).
Definition set_n_fence_char (v : option N) (x : ndata) : ndata := ND (n_t x) (n_sourcepos x) (n_last_line_blank x) (n_last_line_checked x) (n_is_open x) (n_string_content x) (n_literal x) (n_list_data x) (n_info x) (n_destination x) (n_title x) (n_is_fenced x) v (n_fence_length x) (n_fence_offset x) (n_level x) (n_on_enter x) (n_on_exit x) (n_html_block_type x).
Definition set_n_fence_length (v : nat) (x : ndata) : ndata := ND (n_t x) (n_sourcepos x) (n_last_line_blank x) (n_last_line_checked x) (n_is_open x) (n_string_content x) (n_literal x) (n_list_data x) (n_info x) (n_destination x) (n_title x) (n_is_fenced x) (n_fence_char x) v (n_fence_offset x) (n_level x) (n_on_enter x) (n_on_exit x) (n_html_block_type x).
Definition set_n_fence_offset (v : option nat) (x : ndata) : ndata := ND (n_t x) (n_sourcepos x) (n_last_line_blank x) (n_last_line_checked x) (n_is_open x) (n_string_content x) (n_literal x) (n_list_data x) (n_info x) (n_destination x) (n_title x) (n_is_fenced x) (n_fence_char x) (n_fence_length x) v (n_level x) (n_on_enter x) (n_on_exit x) (n_html_block_type x).
Definition set_n_level (v : option nat) (x : ndata) : ndata := ND (n_t x) (n_sourcepos x) (n_last_line_blank x) (n_last_line_checked x) (n_is_open x) (n_string_content x) (n_literal x) (n_list_data x) (n_info x) (n_destination x) (n_title x) (n_is_fenced x) (n_fence_char x) (n_fence_length x) (n_fence_offset x) v (n_on_enter x) (n_on_exit x) (n_html_block_type x).
Definition set_n_on_enter (v : option str) (x : ndata) : ndata := ND (n_t x) (n_sourcepos x) (n_last_line_blank x) (n_last_line_checked x) (n_is_open x) (n_string_content x) (n_literal x) (n_list_data x) (n_info x) (n_destination x) (n_title x) (n_is_fenced x) (n_fence_char x) (n_fence_length x) (n_fence_offset x) (n_level x) v (n_on_exit x) (n_html_block_type x).
Definition set_n_on_exit (v : option str) (x : ndata) : ndata := ND (n_t x) (n_sourcepos x) (n_last_line_blank x) (n_last_line_checked x) (n_is_open x) (n_string_content x) (n_literal x) (n_list_data x) (n_info x) (n_destination x) (n_title x) (n_is_fenced x) (n_fence_char x) (n_fence_length x) (n_fence_offset x) (n_level x) (n_on_enter x) v (n_html_block_type x).
Definition set_n_html_block_type (v : option nat) (x : ndata) : ndata := ND (n_t x) (n_sourcepos x) (n_last_line_blank x) (n_last_line_checked x) (n_is_open x) (n_string_content x) (n_literal x) (n_list_data x) (n_info x) (n_destination x) (n_title x) (n_is_fenced x) (n_fence_char x) (n_fence_length x) (n_fence_offset x) (n_level x) (n_on_enter x) (n_on_exit x) v.

(** node.py 72-95: [Node(node_type, sourcepos)] *)
Definition new_node (t : ntype) (sp : option (nat * nat * (nat * nat))) : ndata :=
  ND t sp false false true (Some []) None None None None None false None O None None None None None.

(** A node with its children. *)
Inductive tree := T (d : ndata) (kids : list tree).
Definition t_data (t : tree) : ndata := let 'T d _ := t in d.
Definition t_kids (t : tree) : list tree := let 'T _ k := t in k.
Definition t_type (t : tree) : ntype := n_t (t_data t).

(** ** The walker, node.py 16-68

    An event is what [walker.nxt()] returns: the node and [entering]; [ev_anc] are the
    data of its ancestors (parent first), which renderers reach through [node.parent]. *)
Record event := EV { ev_node : tree; ev_entering : bool; ev_anc : list ndata }.

(** The sequence of events of [node.walker()].  NodeHeap.v proves that the pointer-chasing
    loop of node.py 23-48 produces this sequence. *)
Fixpoint events (anc : list ndata) (t : tree) : list event :=
  match t with
  | T d kids =>
      if is_container (n_t d)
      then EV t true anc :: flat_map (events (d :: anc)) kids ++ [EV t false anc]
      else [EV t true anc]
  end.
Definition walker (t : tree) : list event := events [] t.
