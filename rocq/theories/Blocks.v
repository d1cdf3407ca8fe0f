(** * Model of blocks.py

    The tree under construction is a zipper.  The open blocks are exactly the ancestors of
    the tip (and the tip): they form the stack [p_stack], tip first, document last; each
    frame has the data of its block and the closed children it has so far.  A closed block
    is a [tree].  A reference to an open block ([container], [last_matched_container]) is
    its depth in the stack: the document has depth 1, the tip has depth [length p_stack]. *)
From Verif Require Import Base Regex Common NormRef Node Inlines.

(** ** Patterns, blocks.py 10-49 *)
Definition CODE_INDENT : nat := 4.
Definition reHtmlBlockOpen_dummy : regex := re_compile noflags (u ".").
Definition reHtmlBlockOpen1 : regex := re_compile IGNORECASE (u "^<(?:script|pre|style)(?:\s|>|$)").
Definition reHtmlBlockOpen2 : regex := re_compile noflags (u "^<!--").
Definition reHtmlBlockOpen3 : regex := re_compile noflags (u "^<[?]").
Definition reHtmlBlockOpen4 : regex := re_compile noflags (u "^<![A-Z]").
Definition reHtmlBlockOpen5 : regex := re_compile noflags (u "^<!\[CDATA\[").
Definition reHtmlBlockOpen6 : regex := re_compile IGNORECASE (
  u "^<[/]?(?:address|article|aside|base|basefont|blockquote|body|" ++
  u "caption|center|col|colgroup|dd|details|dialog|dir|div|dl|dt|" ++
  u "fieldset|figcaption|figure|footer|form|frame|frameset|h1|head|" ++
  u "header|hr|html|iframe|legend|li|link|main|menu|menuitem|" ++
  u "nav|noframes|ol|optgroup|option|p|param|section|source|title|" ++
  u "summary|table|tbody|td|tfoot|th|thead|title|tr|track|ul)" ++
  u "(?:\s|[/]?[>]|$)").
Definition reHtmlBlockOpen7 : regex :=
  re_compile IGNORECASE (u "^(?:" ++ OPENTAG ++ u "|" ++ CLOSETAG ++ u ")\s*$").
Definition reHtmlBlockOpen (n : nat) : regex :=
  nth n [reHtmlBlockOpen_dummy; reHtmlBlockOpen1; reHtmlBlockOpen2; reHtmlBlockOpen3;
         reHtmlBlockOpen4; reHtmlBlockOpen5; reHtmlBlockOpen6; reHtmlBlockOpen7]
      reHtmlBlockOpen_dummy.
Definition reHtmlBlockClose1 : regex := re_compile IGNORECASE (u "<\/(?:script|pre|style)>").
Definition reHtmlBlockClose2 : regex := re_compile noflags (u "-->").
Definition reHtmlBlockClose3 : regex := re_compile noflags (u "\?>").
Definition reHtmlBlockClose4 : regex := re_compile noflags (u ">").
Definition reHtmlBlockClose5 : regex := re_compile noflags (u "\]\]>").
Definition reHtmlBlockClose (n : nat) : regex :=
  nth n [reHtmlBlockOpen_dummy; reHtmlBlockClose1; reHtmlBlockClose2; reHtmlBlockClose3;
         reHtmlBlockClose4; reHtmlBlockClose5] reHtmlBlockOpen_dummy.
Definition reThematicBreak : regex :=
  re_compile noflags (u "^(?:(?:\*[ \t]*){3,}|(?:_[ \t]*){3,}|(?:-[ \t]*){3,})[ \t]*$").
Definition reMaybeSpecial : regex := re_compile noflags (u "^[#`~*+_=<>0-9-]").
Definition reNonSpace : regex := re_compile noflags (u "[^ \t\f\v\r\n]").
Definition reBulletListMarker : regex := re_compile noflags (u "^[*+-]").
Definition reOrderedListMarker : regex := re_compile noflags (u "^(\d{1,9})([.)])").
Definition reATXHeadingMarker : regex := re_compile noflags (u "^#{1,6}(?:[ \t]+|$)").
Definition reCodeFence : regex := re_compile noflags (u "^`{3,}(?!.*`)|^~{3,}").
Definition reClosingCodeFence : regex := re_compile noflags (u "^(?:`{3,}|~{3,})(?= *$)").
Definition reSetextHeadingLine : regex := re_compile noflags (u "^(?:=+|-+)[ \t]*$").
Definition reLineEnding : regex := re_compile noflags (u "\r\n|\n|\r").
(** patterns written inline: blocks.py 359 and 381, 466, 465 *)
Definition reTrailingBlank : regex := re_compile noflags (u "(\n *)+$").
Definition reAtxOnlyHashes : regex := re_compile noflags (u "^[ \t]*#+[ \t]*$").
Definition reAtxTrailing : regex := re_compile noflags (u "[ \t]+#+[ \t]*$").

(** ** State *)

(** An open block: its data and its closed children, in order. *)
Record frame := F { f_data : ndata; f_kids : list tree }.
Definition f_type (f : frame) : ntype := n_t (f_data f).
Definition set_f_data (d : ndata) (f : frame) : frame := F d (f_kids f).

(** The attributes of a [Parser], blocks.py 589-609.  [p_doc] is the document once it has been
    finalized (the stack is then empty).  [oldtip] has no field: whenever
    [close_unmatched_blocks] uses it, it is the tip.  [p_matched] is the depth of
    [last_matched_container].  The [options] are reduced to the one the parser reads. *)
Record parser := P {
  p_stack : list frame;
  p_doc : option tree;
  p_line : str;
  p_line_number : nat;
  p_offset : nat;
  p_column : nat;
  p_next_nonspace : nat;
  p_next_nonspace_column : nat;
  p_indent : nat;
  p_indented : bool;
  p_blank : bool;
  p_pct : bool;
  p_all_closed : bool;
  p_matched : nat;
  p_refmap : refmap_t;
  p_last_line_length : nat;
  p_ip : ip;
  p_smart : bool }.
Definition set_p_stack (v : list frame) (x : parser) : parser := P v (p_doc x) (p_line x) (p_line_number x) (p_offset x) (p_column x) (p_next_nonspace x) (p_next_nonspace_column x) (p_indent x) (p_indented x) (p_blank x) (p_pct x) (p_all_closed x) (p_matched x) (p_refmap x) (p_last_line_length x) (p_ip x) (p_smart x).
Definition set_p_doc (v : option tree) (x : parser) : parser := P (p_stack x) v (p_line x) (p_line_number x) (p_offset x) (p_column x) (p_next_nonspace x) (p_next_nonspace_column x) (p_indent x) (p_indented x) (p_blank x) (p_pct x) (p_all_closed x) (p_matched x) (p_refmap x) (p_last_line_length x) (p_ip x) (p_smart x).
Definition set_p_line (v : str) (x : parser) : parser := P (p_stack x) (p_doc x) v (p_line_number x) (p_offset x) (p_column x) (p_next_nonspace x) (p_next_nonspace_column x) (p_indent x) (p_indented x) (p_blank x) (p_pct x) (p_all_closed x) (p_matched x) (p_refmap x) (p_last_line_length x) (p_ip x) (p_smart x).
Definition set_p_line_number (v : nat) (x : parser) : parser := P (p_stack x) (p_doc x) (p_line x) v (p_offset x) (p_column x) (p_next_nonspace x) (p_next_nonspace_column x) (p_indent x) (p_indented x) (p_blank x) (p_pct x) (p_all_closed x) (p_matched x) (p_refmap x) (p_last_line_length x) (p_ip x) (p_smart x).
Definition set_p_offset (v : nat) (x : parser) : parser := P (p_stack x) (p_doc x) (p_line x) (p_line_number x) v (p_column x) (p_next_nonspace x) (p_next_nonspace_column x) (p_indent x) (p_indented x) (p_blank x) (p_pct x) (p_all_closed x) (p_matched x) (p_refmap x) (p_last_line_length x) (p_ip x) (p_smart x).
Definition set_p_column (v : nat) (x : parser) : parser := P (p_stack x) (p_doc x) (p_line x) (p_line_number x) (p_offset x) v (p_next_nonspace x) (p_next_nonspace_column x) (p_indent x) (p_indented x) (p_blank x) (p_pct x) (p_all_closed x) (p_matched x) (p_refmap x) (p_last_line_length x) (p_ip x) (p_smart x).
Definition set_p_next_nonspace (v : nat) (x : parser) : parser := P (p_stack x) (p_doc x) (p_line x) (p_line_number x) (p_offset x) (p_column x) v (p_next_nonspace_column x) (p_indent x) (p_indented x) (p_blank x) (p_pct x) (p_all_closed x) (p_matched x) (p_refmap x) (p_last_line_length x) (p_ip x) (p_smart x).
Definition set_p_next_nonspace_column (v : nat) (x : parser) : parser := P (p_stack x) (p_doc x) (p_line x) (p_line_number x) (p_offset x) (p_column x) (p_next_nonspace x) v (p_indent x) (p_indented x) (p_blank x) (p_pct x) (p_all_closed x) (p_matched x) (p_refmap x) (p_last_line_length x) (p_ip x) (p_smart x).
Definition set_p_indent (v : nat) (x : parser) : parser := P (p_stack x) (p_doc x) (p_line x) (p_line_number x) (p_offset x) (p_column x) (p_next_nonspace x) (p_next_nonspace_column x) v (p_indented x) (p_blank x) (p_pct x) (p_all_closed x) (p_matched x) (p_refmap x) (p_last_line_length x) (p_ip x) (p_smart x).
Definition set_p_indented (v : bool) (x : parser) : parser := P (p_stack x) (p_doc x) (p_line x) (p_line_number x) (p_offset x) (p_column x) (p_next_nonspace x) (p_next_nonspace_column x) (p_indent x) v (p_blank x) (p_pct x) (p_all_closed x) (p_matched x) (p_refmap x) (p_last_line_length x) (p_ip x) (p_smart x).
Definition set_p_blank (v : bool) (x : parser) : parser := P (p_stack x) (p_doc x) (p_line x) (p_line_number x) (p_offset x) (p_column x) (p_next_nonspace x) (p_next_nonspace_column x) (p_indent x) (p_indented x) v (p_pct x) (p_all_closed x) (p_matched x) (p_refmap x) (p_last_line_length x) (p_ip x) (p_smart x).
Definition set_p_pct (v : bool) (x : parser) : parser := P (p_stack x) (p_doc x) (p_line x) (p_line_number x) (p_offset x) (p_column x) (p_next_nonspace x) (p_next_nonspace_column x) (p_indent x) (p_indented x) (p_blank x) v (p_all_closed x) (p_matched x) (p_refmap x) (p_last_line_length x) (p_ip x) (p_smart x).
Definition set_p_all_closed (v : bool) (x : parser) : parser := P (p_stack x) (p_doc x) (p_line x) (p_line_number x) (p_offset x) (p_column x) (p_next_nonspace x) (p_next_nonspace_column x) (p_indent x) (p_indented x) (p_blank x) (p_pct x) v (p_matched x) (p_refmap x) (p_last_line_length x) (p_ip x) (p_smart x).
Definition set_p_matched (v : nat) (x : parser) : parser := P (p_stack x) (p_doc x) (p_line x) (p_line_number x) (p_offset x) (p_column x) (p_next_nonspace x) (p_next_nonspace_column x) (p_indent x) (p_indented x) (p_blank x) (p_pct x) (p_all_closed x) v (p_refmap x) (p_last_line_length x) (p_ip x) (p_smart x).
Definition set_p_refmap (v : refmap_t) (x : parser) : parser := P (p_stack x) (p_doc x) (p_line x) (p_line_number x) (p_offset x) (p_column x) (p_next_nonspace x) (p_next_nonspace_column x) (p_indent x) (p_indented x) (p_blank x) (p_pct x) (p_all_closed x) (p_matched x) v (p_last_line_length x) (p_ip x) (p_smart x).
Definition set_p_last_line_length (v : nat) (x : parser) : parser := P (p_stack x) (p_doc x) (p_line x) (p_line_number x) (p_offset x) (p_column x) (p_next_nonspace x) (p_next_nonspace_column x) (p_indent x) (p_indented x) (p_blank x) (p_pct x) (p_all_closed x) (p_matched x) (p_refmap x) v (p_ip x) (p_smart x).
Definition set_p_ip (v : ip) (x : parser) : parser := P (p_stack x) (p_doc x) (p_line x) (p_line_number x) (p_offset x) (p_column x) (p_next_nonspace x) (p_next_nonspace_column x) (p_indent x) (p_indented x) (p_blank x) (p_pct x) (p_all_closed x) (p_matched x) (p_refmap x) (p_last_line_length x) v (p_smart x).
Definition set_p_smart (v : bool) (x : parser) : parser := P (p_stack x) (p_doc x) (p_line x) (p_line_number x) (p_offset x) (p_column x) (p_next_nonspace x) (p_next_nonspace_column x) (p_indent x) (p_indented x) (p_blank x) (p_pct x) (p_all_closed x) (p_matched x) (p_refmap x) (p_last_line_length x) (p_ip x) v.


(** blocks.py 52-54 *)
Definition is_blank (s : str) : bool := negb (re_test reNonSpace s).
(** blocks.py 57-58, on the result of [peek] *)
Definition is_space_or_tab (c : option N) : bool :=
  match c with Some x => N.eqb x SP || N.eqb x TAB | None => false end.
(** blocks.py 61-65 *)
Definition peek (ln : str) (pos : nat) : option N := nth_error ln pos.
Definition opt_is (c : N) (o : option N) : bool :=
  match o with Some x => N.eqb x c | None => false end.

(** the text from [next_nonspace] on *)
Definition rest_nonspace (p : parser) : str := skipn (p_next_nonspace p) (p_line p).
(** the text from [offset] on *)
Definition rest_offset (p : parser) : str := skipn (p_offset p) (p_line p).

(** blocks.py 68-82: [ends_with_blank_line], with the blocks it marks as checked *)
Definition is_list_or_item (t : ntype) : bool := ntype_eqb t list_ || ntype_eqb t item.
Fixpoint ends_with_blank_line (b : tree) : bool * tree :=
  match b with
  | T d kids =>
      if n_last_line_blank d then (true, b)
      else if negb (n_last_line_checked d) && is_list_or_item (n_t d)
      then
        let '(r, kids') :=
          (fix on_last (ks : list tree) : bool * list tree :=
             match ks with
             | [] => (false, [])
             | k :: ks' =>
                 match ks' with
                 | [] => let '(r, k') := ends_with_blank_line k in (r, [k'])
                 | _ => let '(r, l) := on_last ks' in (r, k :: l)
                 end
             end) kids in
        (r, T (set_n_last_line_checked true d) kids')
      else (false, T (set_n_last_line_checked true d) kids)
  end.

(** ** Offsets and columns *)

(** blocks.py 654-667: the loop; new position and column *)
Fixpoint skip_spaces (s : str) (i cols : nat) : nat * nat :=
  match s with
  | [] => (i, cols)
  | c :: s' => if N.eqb c SP then skip_spaces s' (S i) (S cols)
               else if N.eqb c TAB then skip_spaces s' (S i) (cols + (4 - cols mod 4))
               else (i, cols)
  end.
(** blocks.py 645-673: [find_next_nonspace] *)
Definition find_next_nonspace (p : parser) : parser :=
  let '(i, cols) := skip_spaces (rest_offset p) (p_offset p) (p_column p) in
  let c := peek (p_line p) i in
  let indent := cols - p_column p in
  set_p_indented (Nat.leb CODE_INDENT indent)
    (set_p_indent indent
      (set_p_next_nonspace_column cols
        (set_p_next_nonspace i
          (set_p_blank (match c with Some x => N.eqb x 10 || N.eqb x 13 | None => true end) p)))).

(** blocks.py 675-678: [advance_next_nonspace] *)
Definition advance_next_nonspace (p : parser) : parser :=
  set_p_pct false (set_p_column (p_next_nonspace_column p) (set_p_offset (p_next_nonspace p) p)).

(** blocks.py 680-709: [advance_offset]; every iteration lowers [count], which therefore also
    bounds the number of iterations ([fuel] starts as [count]). *)
Fixpoint advance_loop (fuel count : nat) (columns : bool) (p : parser) : parser :=
  match fuel with
  | O => p
  | S f =>
      match count with
      | O => p
      | S count1 =>
          match peek (p_line p) (p_offset p) with
          | None => p
          | Some c =>
              if N.eqb c TAB
              then
                let chars_to_tab := 4 - p_column p mod 4 in
                if columns
                then
                  let pct := Nat.ltb count chars_to_tab in
                  let n := Nat.min count chars_to_tab in
                  advance_loop f (count - n) columns
                    (set_p_offset (if pct then p_offset p else S (p_offset p))
                      (set_p_column (p_column p + n) (set_p_pct pct p)))
                else
                  advance_loop f count1 columns
                    (set_p_offset (S (p_offset p))
                      (set_p_column (p_column p + chars_to_tab) (set_p_pct false p)))
              else
                advance_loop f count1 columns
                  (set_p_column (S (p_column p)) (set_p_offset (S (p_offset p)) (set_p_pct false p)))
          end
      end
  end.
Definition advance_offset (count : nat) (columns : bool) (p : parser) : parser :=
  advance_loop count count columns p.
(** [parser.advance_offset(len(parser.current_line) - parser.offset, False)] *)
Definition advance_to_end (p : parser) : parser :=
  advance_offset (length (p_line p) - p_offset p) false p.

(** ** Lines and blocks *)

Definition tip (p : parser) : res frame := of_option AttributeError (hd_error (p_stack p)).

(** [self.tip.string_content = s]; also used for other changes to the data of the tip *)
Definition on_tip (f : ndata -> ndata) (p : parser) : res parser :=
  match p_stack p with
  | fr :: st => Ok (set_p_stack (set_f_data (f (f_data fr)) fr :: st) p)
  | [] => Err AttributeError
  end.

(** blocks.py 611-620: [add_line] *)
Definition add_line (p : parser) : res parser :=
  let* t := tip p in
  let* sc := of_option TypeError (n_string_content (f_data t)) in
  let '(p1, pad) :=
    if p_pct p then (set_p_offset (S (p_offset p)) p, repeat SP (4 - p_column p mod 4))
    else (p, []) in
  on_tip (set_n_string_content (Some (sc ++ pad ++ rest_offset p1 ++ [LF]))) p1.

(** The [blocks] dictionary (905-908) has the nine block types; looking up another type is a
    KeyError. *)
Definition is_block_type (t : ntype) : bool :=
  match t with
  | document | list_ | block_quote | item | heading | thematic_break | code_block
  | html_block | paragraph => true
  | _ => false
  end.
(** [self.blocks[t].accepts_lines], blocks.py 182-391 *)
Definition accepts_lines (t : ntype) : res bool :=
  if is_block_type t
  then Ok (match t with code_block | html_block | paragraph => true | _ => false end)
  else Err KeyError.
(** [self.blocks[t].can_contain(tag)], blocks.py 193-194, 224-225, 248-249, 277-278, 294-295,
    311-312, 364-365, 386-387, 413-414 *)
Definition can_contain (t tag : ntype) : res bool :=
  if is_block_type t
  then Ok (match t with
           | document | block_quote | item => negb (ntype_eqb tag item)
           | list_ => ntype_eqb tag item
           | _ => false
           end)
  else Err KeyError.

(** blocks.py 214-220: the children of an item; true if the list is loose because of them *)
Fixpoint check_subitems (item_nxt : bool) (subs : list tree) : bool * list tree :=
  match subs with
  | [] => (false, [])
  | s :: r =>
      let '(b, s') := ends_with_blank_line s in
      if b && (item_nxt || negb (is_nil r)) then (true, s' :: r)
      else let '(b', r') := check_subitems item_nxt r in (b', s' :: r')
  end.
(** blocks.py 206-221: the items; true if the list is loose *)
Fixpoint check_items (items : list tree) : bool * list tree :=
  match items with
  | [] => (false, [])
  | i :: r =>
      let '(b, i') := ends_with_blank_line i in
      if b && negb (is_nil r) then (true, i' :: r)
      else
        let '(b1, subs) := check_subitems (negb (is_nil r)) (t_kids i') in
        let '(b2, r') := check_items r in
        (b1 || b2, T (t_data i') subs :: r')
  end.
Definition loosen (d : ndata) : ndata :=
  set_n_list_data (option_map (set_ld_tight false) (n_list_data d)) d.
(** blocks.py 204-221: [List.finalize].  The list and its first item share one [list_data]
    dictionary (lines 565, 569), so [tight] changes for both. *)
Definition finalize_list (d : ndata) (items : list tree) : ndata * list tree :=
  let '(loose, items') := check_items items in
  if loose
  then (loosen d, match items' with
                  | T di k :: r => T (loosen di) k :: r
                  | [] => []
                  end)
  else (d, items').

(** [s.index(c)] *)
Fixpoint index_of (c : N) (s : str) : option nat :=
  match s with
  | [] => None
  | x :: s' => if N.eqb x c then Some 0 else option_map S (index_of c s')
  end.

(** blocks.py 347-361: [CodeBlock.finalize] *)
Definition finalize_code (d : ndata) : res ndata :=
  let* content := of_option AttributeError (n_string_content d) in
  if n_is_fenced d
  then
    let* i := of_option ValueError (index_of LF content) in
    Ok (set_n_string_content None
          (set_n_literal (Some (skipn (i + 1) content))
            (set_n_info (Some (unescape_string (strip (firstn i content)))) d)))
  else
    Ok (set_n_string_content None
          (set_n_literal (Some (re_sub reTrailingBlank (fun _ => [LF]) content)) d)).

(** blocks.py 379-383: [HtmlBlock.finalize] *)
Definition finalize_html (d : ndata) : res ndata :=
  let* content := of_option TypeError (n_string_content d) in
  Ok (set_n_string_content None
        (set_n_literal (Some (re_sub reTrailingBlank (fun _ => []) content)) d)).

(** blocks.py 402-408, 522-527: the loop over leading reference definitions; the rest of the
    content, and whether there was a definition *)
Fixpoint ref_loop (fuel : nat) (content : str) (found : bool) (s : ip) (rm : refmap_t)
  : res (str * bool * ip * refmap_t) :=
  match fuel with
  | O => Err OutOfFuel
  | S f =>
      if opt_is 91 (peek content 0)
      then
        let* (pos, s', rm') := parseReference content rm s in
        if Nat.eqb pos 0 then Ok (content, found, s', rm')
        else ref_loop f (skipn pos content) true s' rm'
      else Ok (content, found, s, rm)
  end.
Definition strip_refs (content : str) (p : parser) : res (str * bool * parser) :=
  let* (c, found, s, rm) := ref_loop (S (length content)) content false (p_ip p) (p_refmap p) in
  Ok (c, found, set_p_ip s (set_p_refmap rm p)).

(** blocks.py 397-410: [Paragraph.finalize]; the boolean says that the block is unlinked *)
Definition finalize_paragraph (d : ndata) (p : parser) : res (ndata * bool * parser) :=
  let* content := of_option TypeError (n_string_content d) in
  let* (c, found, p1) := strip_refs content p in
  Ok (set_n_string_content (Some c) d, found && is_blank c, p1).

(** [above.append_child] seen from the closed child: it becomes a closed child of the frame
    below, or the finished document *)
Definition attach (t : tree) (p : parser) : parser :=
  match p_stack p with
  | fr :: st => set_p_stack (F (f_data fr) (f_kids fr ++ [t]) :: st) p
  | [] => set_p_doc (Some t) p
  end.

(** blocks.py 851-863: [finalize] of the tip.  (Every call in the code is on the tip.) *)
Definition finalize_tip (line_number : nat) (p : parser) : res parser :=
  match p_stack p with
  | [] => Err AttributeError
  | fr :: st =>
      let d0 := set_n_is_open false (f_data fr) in
      let* (sp0, _) := of_option TypeError (n_sourcepos d0) in
      let d := set_n_sourcepos (Some (sp0, (line_number, p_last_line_length p))) d0 in
      let p0 := set_p_stack st p in
      match n_t d with
      | document | block_quote | item | heading | thematic_break =>
          Ok (attach (T d (f_kids fr)) p0)
      | list_ => let '(d', items) := finalize_list d (f_kids fr) in Ok (attach (T d' items) p0)
      | code_block => let* d' := finalize_code d in Ok (attach (T d' (f_kids fr)) p0)
      | html_block => let* d' := finalize_html d in Ok (attach (T d' (f_kids fr)) p0)
      | paragraph =>
          let* (d', gone, p1) := finalize_paragraph d p0 in
          Ok (if gone then p1 else attach (T d' (f_kids fr)) p1)
      | _ => Err KeyError
      end
  end.

(** blocks.py 626-627 *)
Fixpoint make_room (fuel : nat) (tag : ntype) (p : parser) : res parser :=
  match fuel with
  | O => Err OutOfFuel
  | S f =>
      let* t := tip p in
      let* ok := can_contain (f_type t) tag in
      if ok then Ok p
      else let* p' := finalize_tip (p_line_number p - 1) p in make_room f tag p'
  end.
(** blocks.py 622-634: [add_child]; the new block becomes the tip *)
Definition add_child (tag : ntype) (offset : nat) (p : parser) : res parser :=
  let* p1 := make_room (S (length (p_stack p))) tag p in
  Ok (set_p_stack (F (new_node tag (Some (p_line_number p1, offset + 1, (0, 0)))) [] :: p_stack p1) p1).

(** blocks.py 639-642 *)
Fixpoint close_loop (fuel : nat) (p : parser) : res parser :=
  if Nat.leb (length (p_stack p)) (p_matched p) then Ok p
  else match fuel with
       | O => Err OutOfFuel
       | S f => let* p' := finalize_tip (p_line_number p - 1) p in close_loop f p'
       end.
(** blocks.py 636-643: [close_unmatched_blocks] *)
Definition close_unmatched_blocks (p : parser) : res parser :=
  if p_all_closed p then Ok p
  else let* p' := close_loop (length (p_stack p)) p in Ok (set_p_all_closed true p').

(** The open block at a depth *)
Definition block_at (depth : nat) (p : parser) : res frame :=
  of_option Impossible (nth_error (p_stack p) (length (p_stack p) - depth)).

(** ** Continuation: [continue_] of each block type *)
Inductive cont := CMatch | CFail | CDone.   (* 0, 1, 2 *)

(** blocks.py 334-336 *)
Fixpoint skip_fence_offset (i : nat) (p : parser) : parser :=
  match i with
  | O => p
  | S i' => if is_space_or_tab (peek (p_line p) (p_offset p))
            then skip_fence_offset i' (advance_offset 1 true p)
            else p
  end.

(** [list_data['marker_offset'] + list_data['padding']] *)
Definition item_indent (d : ndata) : res nat :=
  match n_list_data d with
  | Some ld => Ok (ld_marker_offset ld + ld_padding ld)
  | None => Err KeyError
  end.

(** blocks.py 185-186, 201-202, 232-241, 256-270, 285-287, 302-304, 319-345, 372-377, 394-395.
    [has_child]: the block has children (closed, or the next open block) *)
Definition continue_ (d : ndata) (has_child : bool) (p : parser) : res (cont * parser) :=
  match n_t d with
  | document | list_ => Ok (CMatch, p)
  | block_quote =>
      if negb (p_indented p) && opt_is 62 (peek (p_line p) (p_next_nonspace p))
      then
        let p1 := advance_offset 1 false (advance_next_nonspace p) in
        let p2 := if is_space_or_tab (peek (p_line p1) (p_offset p1))
                  then advance_offset 1 true p1 else p1 in
        Ok (CMatch, p2)
      else Ok (CFail, p)
  | item =>
      if p_blank p
      then if has_child then Ok (CMatch, advance_next_nonspace p) else Ok (CFail, p)
      else
        let* n := item_indent d in
        if Nat.leb n (p_indent p) then Ok (CMatch, advance_offset n true p) else Ok (CFail, p)
  | heading | thematic_break => Ok (CFail, p)
  | code_block =>
      if n_is_fenced d
      then
        let ln := p_line p in
        let m :=
          if Nat.leb (p_indent p) 3 && Nat.leb (p_next_nonspace p + 1) (length ln)
             && opt_eqb N.eqb (peek ln (p_next_nonspace p)) (n_fence_char d)
          then re_search reClosingCodeFence (rest_nonspace p) else None in
        match m with
        | Some m =>
            if Nat.leb (n_fence_length d) (length (rm_group m))
            then let* p' := finalize_tip (p_line_number p) p in Ok (CDone, p')
            else let* i := of_option TypeError (n_fence_offset d) in
                 Ok (CMatch, skip_fence_offset i p)
        | None => let* i := of_option TypeError (n_fence_offset d) in
                  Ok (CMatch, skip_fence_offset i p)
        end
      else
        if Nat.leb CODE_INDENT (p_indent p) then Ok (CMatch, advance_offset CODE_INDENT true p)
        else if p_blank p then Ok (CMatch, advance_next_nonspace p)
        else Ok (CFail, p)
  | html_block =>
      let* ty := of_option AttributeError (n_html_block_type d) in
      if p_blank p && (Nat.eqb ty 6 || Nat.eqb ty 7) then Ok (CFail, p) else Ok (CMatch, p)
  | paragraph => Ok (if p_blank p then CFail else CMatch, p)
  | _ => Err KeyError
  end.

(** ** Block starts: the result says no match (0), container (1) or leaf (2) *)
Inductive start := SNone | SContainer | SLeaf.

(** blocks.py 436-449 *)
Definition start_block_quote (p : parser) : res (start * parser) :=
  if negb (p_indented p) && opt_is 62 (peek (p_line p) (p_next_nonspace p))
  then
    let p1 := advance_offset 1 false (advance_next_nonspace p) in
    let p2 := if is_space_or_tab (peek (p_line p1) (p_offset p1))
              then advance_offset 1 true p1 else p1 in
    let* p3 := close_unmatched_blocks p2 in
    let* p4 := add_child block_quote (p_next_nonspace p3) p3 in
    Ok (SContainer, p4)
  else Ok (SNone, p).

(** blocks.py 464-468: the text of an ATX heading *)
Definition atx_content (s : str) : str :=
  re_sub reAtxTrailing (fun _ => []) (re_sub reAtxOnlyHashes (fun _ => []) s).
(** blocks.py 451-473 *)
Definition start_atx_heading (p : parser) : res (start * parser) :=
  if p_indented p then Ok (SNone, p)
  else
    match re_search reATXHeadingMarker (rest_nonspace p) with
    | None => Ok (SNone, p)
    | Some m =>
        let p1 := advance_offset (length (rm_group m)) false (advance_next_nonspace p) in
        let* p2 := close_unmatched_blocks p1 in
        let* p3 := add_child heading (p_next_nonspace p2) p2 in
        let* p4 := on_tip (fun d =>
                     set_n_string_content (Some (atx_content (rest_offset p3)))
                       (set_n_level (Some (length (strip (rm_group m)))) d)) p3 in
        Ok (SLeaf, advance_to_end p4)
    end.

(** blocks.py 475-494 *)
Definition start_fenced_code (p : parser) : res (start * parser) :=
  if p_indented p then Ok (SNone, p)
  else
    match re_search reCodeFence (rest_nonspace p) with
    | None => Ok (SNone, p)
    | Some m =>
        let fence_length := length (rm_group m) in
        let* p1 := close_unmatched_blocks p in
        let* p2 := add_child code_block (p_next_nonspace p1) p1 in
        let* c := of_option IndexError (hd_error (rm_group m)) in
        let* p3 := on_tip (fun d =>
                     set_n_fence_offset (Some (p_indent p2))
                       (set_n_fence_char (Some c)
                         (set_n_fence_length fence_length (set_n_is_fenced true d)))) p2 in
        Ok (SLeaf, advance_offset fence_length false (advance_next_nonspace p3))
    end.

(** blocks.py 502-510: the loop over the block types; the first type that matches *)
Definition html_type (s : str) (para : bool) : option nat :=
  find (fun ty => re_test (reHtmlBlockOpen ty) s && (Nat.ltb ty 7 || negb para)) (seq 1 7).
(** blocks.py 496-511 *)
Definition start_html_block (container : ntype) (p : parser) : res (start * parser) :=
  if negb (p_indented p) && opt_is 60 (peek (p_line p) (p_next_nonspace p))
  then
    match html_type (rest_nonspace p) (ntype_eqb container paragraph) with
    | None => Ok (SNone, p)
    | Some ty =>
        let* p1 := close_unmatched_blocks p in
        let* p2 := add_child html_block (p_offset p1) p1 in
        let* p3 := on_tip (set_n_html_block_type (Some ty)) p2 in
        Ok (SLeaf, p3)
    end
  else Ok (SNone, p).

(** blocks.py 513-541.  The container, a paragraph, is the tip once the unmatched blocks are
    closed; replacing it by the heading means replacing the top frame. *)
Definition start_setext_heading (container : ntype) (p : parser) : res (start * parser) :=
  if negb (p_indented p) && ntype_eqb container paragraph
  then
    match re_search reSetextHeadingLine (rest_nonspace p) with
    | None => Ok (SNone, p)
    | Some m =>
        let* p1 := close_unmatched_blocks p in
        let* t := tip p1 in
        let* content := of_option TypeError (n_string_content (f_data t)) in
        let* (c, _, p2) := strip_refs content p1 in
        if is_nil c
        then let* p3 := on_tip (set_n_string_content (Some c)) p2 in Ok (SNone, p3)
        else
          let* x := of_option IndexError (hd_error (rm_group m)) in
          let hd := set_n_string_content (Some c)
                      (set_n_level (Some (if N.eqb x 61 then 1 else 2))
                        (new_node heading (n_sourcepos (f_data t)))) in
          let p3 := set_p_stack (F hd [] :: tl (p_stack p2)) p2 in
          Ok (SLeaf, advance_to_end p3)
    end
  else Ok (SNone, p).

(** blocks.py 543-552 *)
Definition start_thematic_break (p : parser) : res (start * parser) :=
  if negb (p_indented p) && re_test reThematicBreak (rest_nonspace p)
  then
    let* p1 := close_unmatched_blocks p in
    let* p2 := add_child thematic_break (p_next_nonspace p1) p1 in
    Ok (SLeaf, advance_to_end p2)
  else Ok (SNone, p).

(** [int(s)] on a string of decimal digits *)
Definition int_of_digits (s : str) : N :=
  fold_left (fun acc c => (acc * 10 + match digit_value c with Some d => d | None => 0 end)%N) s 0%N.

(** blocks.py 100-111: the marker text and its data (padding still to be filled in) *)
Definition list_marker (s : str) (para : bool) (indent : nat) : option (str * ldata) :=
  match re_search reBulletListMarker s with
  | Some m => Some (rm_group m, LD bullet true (hd_error (rm_group m)) None None 0 indent)
  | None =>
      match re_search reOrderedListMarker s with
      | None => None
      | Some m =>
          let digits := or_empty (rm_cap m 1) in
          if negb para || str_eqb digits (u "1")
          then Some (rm_group m,
                     LD ordered true None (Some (int_of_digits digits))
                        (hd_error (or_empty (rm_cap m 2))) 0 indent)
          else None
      end
  end.
Definition set_ld_padding (v : nat) (x : ldata) : ldata :=
  LD (ld_type x) (ld_tight x) (ld_bullet_char x) (ld_start x) (ld_delimiter x) v (ld_marker_offset x).

(** blocks.py 130-137: at most six rounds, as each but the last moves at least one column *)
Fixpoint marker_spaces (fuel : nat) (start_col : nat) (p : parser) : res parser :=
  match fuel with
  | O => Err OutOfFuel
  | S f =>
      let p1 := advance_offset 1 true p in
      if Nat.ltb (p_column p1 - start_col) 5 && is_space_or_tab (peek (p_line p1) (p_offset p1))
      then marker_spaces f start_col p1
      else Ok p1
  end.

(** blocks.py 85-151: [parse_list_marker] *)
Definition parse_list_marker (container : ntype) (p : parser) : res (option ldata * parser) :=
  let para := ntype_eqb container paragraph in
  if Nat.leb 4 (p_indent p) then Ok (None, p)
  else
    match list_marker (rest_nonspace p) para (p_indent p) with
    | None => Ok (None, p)
    | Some (m, data) =>
        let after := p_next_nonspace p + length m in
        let nextc := peek (p_line p) after in
        if negb (match nextc with None => true | Some c => N.eqb c TAB || N.eqb c SP end)
        then Ok (None, p)
        else if para && negb (re_test reNonSpace (skipn after (p_line p)))
        then Ok (None, p)
        else
          let p1 := advance_offset (length m) true (advance_next_nonspace p) in
          let start_col := p_column p1 in
          let start_offset := p_offset p1 in
          let* p2 := marker_spaces 6 start_col p1 in
          let blank_item := match peek (p_line p2) (p_offset p2) with None => true | _ => false end in
          let spaces := p_column p2 - start_col in
          if Nat.leb 5 spaces || Nat.ltb spaces 1 || blank_item
          then
            let p3 := set_p_offset start_offset (set_p_column start_col p2) in
            let p4 := if is_space_or_tab (peek (p_line p3) (p_offset p3))
                      then advance_offset 1 true p3 else p3 in
            Ok (Some (set_ld_padding (length m + 1) data), p4)
          else Ok (Some (set_ld_padding (length m + spaces) data), p2)
    end.

(** blocks.py 154-162, on possibly empty dictionaries *)
Definition lists_match (l : option ldata) (i : ldata) : bool :=
  match l with
  | None => false
  | Some l => ltype_eqb (ld_type l) (ld_type i)
              && opt_eqb N.eqb (ld_delimiter l) (ld_delimiter i)
              && opt_eqb N.eqb (ld_bullet_char l) (ld_bullet_char i)
  end.

(** blocks.py 554-572.  [container.list_data] is read after the unmatched blocks are closed,
    when the container is the tip. *)
Definition start_list_item (container : ntype) (p : parser) : res (start * parser) :=
  if negb (p_indented p) || ntype_eqb container list_
  then
    let* (data, p1) := parse_list_marker container p in
    match data with
    | None => Ok (SNone, p1)
    | Some data =>
        let* p2 := close_unmatched_blocks p1 in
        let* t := tip p2 in
        let* p3 := if negb (ntype_eqb (f_type t) list_) || negb (lists_match (n_list_data (f_data t)) data)
                   then let* q := add_child list_ (p_next_nonspace p2) p2 in
                        on_tip (set_n_list_data (Some data)) q
                   else Ok p2 in
        let* p4 := add_child item (p_next_nonspace p3) p3 in
        let* p5 := on_tip (set_n_list_data (Some data)) p4 in
        Ok (SContainer, p5)
    end
  else Ok (SNone, p).

(** blocks.py 574-585 *)
Definition start_indented_code (p : parser) : res (start * parser) :=
  let* t := tip p in
  if p_indented p && negb (ntype_eqb (f_type t) paragraph) && negb (p_blank p)
  then
    let* p1 := close_unmatched_blocks (advance_offset CODE_INDENT true p) in
    let* p2 := add_child code_block (p_offset p1) p1 in
    Ok (SLeaf, p2)
  else Ok (SNone, p).

(** blocks.py 425-434: the order of [METHODS] *)
Definition block_starts : list (ntype -> parser -> res (start * parser)) :=
  [ fun _ => start_block_quote; fun _ => start_atx_heading; fun _ => start_fenced_code;
    start_html_block; start_setext_heading; fun _ => start_thematic_break;
    start_list_item; fun _ => start_indented_code ].

(** blocks.py 782-793: trying them in order *)
Fixpoint try_starts (l : list (ntype -> parser -> res (start * parser))) (container : ntype)
                    (p : parser) : res (start * parser) :=
  match l with
  | [] => Ok (SNone, p)
  | f :: l' =>
      let* (r, p1) := f container p in
      match r with SNone => try_starts l' container p1 | _ => Ok (r, p1) end
  end.

(** blocks.py 773-798: the loop; [depth] is the depth of [container].  The result is the
    depth of the final container. *)
Fixpoint starts_loop (fuel : nat) (depth : nat) (p : parser) : res (nat * parser) :=
  match fuel with
  | O => Err OutOfFuel
  | S f =>
      let p1 := find_next_nonspace p in
      if negb (p_indented p1) && negb (re_test reMaybeSpecial (rest_nonspace p1))
      then Ok (depth, advance_next_nonspace p1)
      else
        let* c := block_at depth p1 in
        let* (r, p2) := try_starts block_starts (f_type c) p1 in
        match r with
        | SNone => Ok (depth, advance_next_nonspace p2)
        | SContainer => starts_loop f (length (p_stack p2)) p2
        | SLeaf => Ok (length (p_stack p2), p2)
        end
  end.

(** blocks.py 736-762: descending into the open blocks below the document; the depth of the
    last matching one, or None if the line closed a fenced code block *)
Fixpoint descend (path : list frame) (depth : nat) (p : parser) : res (option nat * parser) :=
  match path with
  | [] => Ok (Some depth, p)
  | fr :: rest =>
      let p1 := find_next_nonspace p in
      let* (rv, p2) := continue_ (f_data fr) (negb (is_nil (f_kids fr)) || negb (is_nil rest)) p1 in
      match rv with
      | CMatch => descend rest (S depth) p2
      | CFail => Ok (Some depth, p2)
      | CDone => Ok (None, p2)
      end
  end.

(** the last of [ks] gets [last_line_blank = True], blocks.py 811 *)
Definition mark_last_blank (ks : list tree) : list tree :=
  match last_opt ks with
  | Some (T d k) => removelast ks ++ [T (set_n_last_line_blank true d) k]
  | None => []
  end.

(** blocks.py 808-847: the line is not a lazy continuation.  The container is the tip once the
    unmatched blocks are closed. *)
Definition add_text (p : parser) : res parser :=
  let* p1 := close_unmatched_blocks p in
  let* c := tip p1 in
  let kids := if p_blank p1 then mark_last_blank (f_kids c) else f_kids c in
  let t := f_type c in
  let* first_line :=
    (* container.sourcepos[0][0], evaluated only for an empty item on a blank line *)
    match n_sourcepos (f_data c) with
    | Some (l, _, _) => Ok l
    | None => if p_blank p1 && ntype_eqb t item && is_nil kids then Err TypeError else Ok 0
    end in
  let llb := p_blank p1 &&
             negb (ntype_eqb t block_quote ||
                   (ntype_eqb t code_block && n_is_fenced (f_data c)) ||
                   (ntype_eqb t item && is_nil kids && Nat.eqb first_line (p_line_number p1))) in
  let blanked fr := set_f_data (set_n_last_line_blank llb (f_data fr)) fr in
  let p2 := set_p_stack (map blanked (F (f_data c) kids :: tl (p_stack p1))) p1 in
  let* acc := accepts_lines t in
  if acc
  then
    let* p3 := add_line p2 in
    if ntype_eqb t html_block
    then
      let* ty := of_option AttributeError (n_html_block_type (f_data c)) in
      if Nat.leb 1 ty && Nat.leb ty 5 && re_test (reHtmlBlockClose ty) (rest_offset p3)
      then finalize_tip (p_line_number p3) p3
      else Ok p3
    else Ok p3
  else if Nat.ltb (p_offset p2) (length (p_line p2)) && negb (p_blank p2)
  then
    let* p3 := add_child paragraph (p_offset p2) p2 in
    add_line (advance_next_nonspace p3)
  else Ok p2.

(** blocks.py 711-849: [incorporate_line] *)
Definition incorporate_line (ln0 : str) (p : parser) : res parser :=
  let ln := replace_char 0 65533 ln0 in
  let p1 := set_p_line ln
              (set_p_line_number (S (p_line_number p))
                (set_p_pct false (set_p_blank false (set_p_column 0 (set_p_offset 0 p))))) in
  let* (matched, p2) := descend (tl (rev (p_stack p1))) 1 p1 in
  let done q := Ok (set_p_last_line_length (length ln) q) in
  match matched with
  | None => done p2
  | Some depth =>
      let p3 := set_p_matched depth (set_p_all_closed (Nat.eqb depth (length (p_stack p2))) p2) in
      let* c := block_at depth p3 in
      let* acc := accepts_lines (f_type c) in
      let matched_leaf := negb (ntype_eqb (f_type c) paragraph) && acc in
      let* (_, p4) := if matched_leaf then Ok (depth, p3)
                      else starts_loop (S (length ln)) depth p3 in
      let* t := tip p4 in
      let* p5 := if negb (p_all_closed p4) && negb (p_blank p4) && ntype_eqb (f_type t) paragraph
                 then add_line p4
                 else add_text p4 in
      done p5
  end.

(** ** The whole parse *)

(** blocks.py 865-879: [process_inlines].  The walker of a block tree reaches every node below
    containers; paragraphs and headings get their inline children when they are left, after the
    walker has moved on. *)
Fixpoint process_inlines (t : tree) (s : ip) : res (tree * ip) :=
  match t with
  | T d kids =>
      if is_container (n_t d)
      then
        let* (kids', s1) :=
          (fix go (ks : list tree) (s : ip) : res (list tree * ip) :=
             match ks with
             | [] => Ok ([], s)
             | k :: ks' =>
                 let* (k', s1) := process_inlines k s in
                 let* (l, s2) := go ks' s1 in
                 Ok (k' :: l, s2)
             end) kids s in
        if ntype_eqb (n_t d) paragraph || ntype_eqb (n_t d) heading
        then
          let* content := of_option AttributeError (n_string_content d) in
          let* (inls, s2) := parseInlines content s1 in
          Ok (T d (kids' ++ inls), s2)
        else Ok (T d kids', s1)
      else Ok (t, s)
  end.

(** blocks.py 588-609: [Parser(options)] *)
Definition doc_frame : frame := F (new_node document (Some (1, 1, (0, 0)))) [].
Definition new_parser (smart : bool) : parser :=
  P [doc_frame] None [] 0 0 0 0 0 0 false false false true 1 [] 0 (new_ip smart) smart.

(** blocks.py 883-891: what [parse] resets *)
Definition reset (p : parser) : parser :=
  set_p_line [] (set_p_matched 1 (set_p_column 0 (set_p_offset 0 (set_p_last_line_length 0
    (set_p_line_number 0 (set_p_refmap [] (set_p_stack [doc_frame] (set_p_doc None p)))))))).

(** blocks.py 892-898: the lines *)
Definition input_lines (s : str) : list str :=
  let lines := re_split reLineEnding s in
  match last_opt s with
  | Some c => if N.eqb c LF then removelast lines else lines
  | None => lines
  end.

Fixpoint incorporate_lines (ls : list str) (p : parser) : res parser :=
  match ls with
  | [] => Ok p
  | l :: ls' => let* p' := incorporate_line l p in incorporate_lines ls' p'
  end.

(** blocks.py 899-900 *)
Fixpoint finalize_all (fuel : nat) (line_number : nat) (p : parser) : res parser :=
  match p_stack p with
  | [] => Ok p
  | _ => match fuel with
         | O => Err OutOfFuel
         | S f => let* p' := finalize_tip line_number p in finalize_all f line_number p'
         end
  end.

(** blocks.py 892-900: the block phase *)
Definition parse_blocks (s : str) (p : parser) : res parser :=
  let lines := input_lines s in
  let* p1 := incorporate_lines lines p in
  finalize_all (length (p_stack p1)) (length lines) p1.

(** blocks.py 881-902: [parse]; the document and the parser afterwards *)
Definition parse (p : parser) (s : str) : res (tree * parser) :=
  let* p1 := parse_blocks s (reset p) in
  let* doc := of_option Impossible (p_doc p1) in
  let ip0 := IP (ip_subject (p_ip p1)) (ip_pos (p_ip p1)) (p_refmap p1) (p_smart p1)
                (ip_delims (p_ip p1)) (ip_brackets (p_ip p1)) (ip_kids (p_ip p1)) (ip_next (p_ip p1)) in
  let* (doc', s1) := process_inlines doc ip0 in
  Ok (doc', set_p_doc (Some doc') (set_p_ip s1 p1)).
