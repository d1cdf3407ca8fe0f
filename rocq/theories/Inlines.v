(** * Model of inlines.py

    State of an [InlineParser] plus the children of the block being filled.  The children
    appended so far are a list of siblings [ip_kids], each with an identity (a fresh
    number) so that delimiters and brackets can point to them.  The doubly linked
    delimiter stack is a list, top first; so is the bracket stack. *)
From Verif Require Import Base Regex Common NormRef Node.

(** ** Patterns, inlines.py 23-83 *)
Definition ESCAPED_CHAR := u "\\" ++ ESCAPABLE.
(** inlines.py 25-51 *)
Definition rePunctuation : regex := re_compile noflags (
    u "[!""#$%&\'()*+,\-./:;<=>?@\[\]\\^_`{|}~\xA1\xA7\xAB\xB6\xB7\xBB" ++
    u "\xBF\u037E\u0387\u055A-\u055F\u0589\u058A\u05BE\u05C0\u05C3" ++
    u "\u05C6\u05F3\u05F4\u0609\u060A\u060C\u060D\u061B\u061E\u061F" ++
    u "\u066A-\u066D\u06D4\u0700-\u070D\u07F7-\u07F9\u0830-\u083E" ++
    u "\u085E\u0964\u0965\u0970\u0AF0\u0DF4\u0E4F\u0E5A\u0E5B\u0F04-\u0F12" ++
    u "\u0F14\u0F3A-\u0F3D\u0F85\u0FD0-\u0FD4\u0FD9\u0FDA\u104A-\u104F\u10FB" ++
    u "\u1360-\u1368\u1400\u166D\u166E\u169B\u169C\u16EB-\u16ED\u1735\u1736" ++
    u "\u17D4-\u17D6\u17D8-\u17DA\u1800-\u180A\u1944\u1945\u1A1E\u1A1F\u1AA0-" ++
    u "\u1AA6\u1AA8-\u1AAD\u1B5A-\u1B60\u1BFC-\u1BFF\u1C3B-\u1C3F\u1C7E\u1C7F" ++
    u "\u1CC0-\u1CC7\u1CD3\u2010-\u2027\u2030-\u2043\u2045-\u2051\u2053-\u205E" ++
    u "\u207D\u207E\u208D\u208E\u2308-\u230B\u2329\u232A\u2768-\u2775\u27C5" ++
    u "\u27C6\u27E6-\u27EF\u2983-\u2998\u29D8-\u29DB\u29FC\u29FD\u2CF9-\u2CFC" ++
    u "\u2CFE\u2CFF\u2D70\u2E00-\u2E2E\u2E30-\u2E42\u3001-\u3003\u3008-\u3011" ++
    u "\u3014-\u301F\u3030\u303D\u30A0\u30FB\uA4FE\uA4FF\uA60D-\uA60F\uA673" ++
    u "\uA67E\uA6F2-\uA6F7\uA874-\uA877\uA8CE\uA8CF\uA8F8-\uA8FA\uA8FC\uA92E" ++
    u "\uA92F\uA95F\uA9C1-\uA9CD\uA9DE\uA9DF\uAA5C-\uAA5F\uAADE\uAADF\uAAF0" ++
    u "\uAAF1\uABEB\uFD3E\uFD3F\uFE10-\uFE19\uFE30-\uFE52\uFE54-\uFE61\uFE63" ++
    u "\uFE68\uFE6A\uFE6B\uFF01-\uFF03\uFF05-\uFF0A\uFF0C-\uFF0F\uFF1A\uFF1B" ++
    u "\uFF1F\uFF20\uFF3B-\uFF3D\uFF3F\uFF5B\uFF5D\uFF5F-\uFF65]|\uD800[\uDD00-" ++
    u "\uDD02\uDF9F\uDFD0]|\uD801\uDD6F|\uD802[\uDC57\uDD1F\uDD3F\uDE50-\uDE58" ++
    u "\uDE7F\uDEF0-\uDEF6\uDF39-\uDF3F\uDF99-\uDF9C]|\uD804[\uDC47-\uDC4D" ++
    u "\uDCBB\uDCBC\uDCBE-\uDCC1\uDD40-\uDD43\uDD74\uDD75\uDDC5-\uDDC9\uDDCD" ++
    u "\uDDDB\uDDDD-\uDDDF\uDE38-\uDE3D\uDEA9]|\uD805[\uDCC6\uDDC1-\uDDD7" ++
    u "\uDE41-\uDE43\uDF3C-\uDF3E]|\uD809[\uDC70-\uDC74]|\uD81A[\uDE6E\uDE6F" ++
    u "\uDEF5\uDF37-\uDF3B\uDF44]|\uD82F\uDC9F|\uD836[\uDE87-\uDE8B]").
(** inlines.py 53-58 *)
Definition reLinkTitle : regex := re_compile noflags (
  u "^(?:""(" ++ ESCAPED_CHAR ++ u "|[^""\x00])*""" ++
  u "|" ++
  u "'(" ++ ESCAPED_CHAR ++ u "|[^'\x00])*'" ++
  u "|" ++
  u "\((" ++ ESCAPED_CHAR ++ u "|[^()\x00])*\))").
(** inlines.py 59-83 *)
Definition reLinkDestinationBraces : regex := re_compile noflags (u "^(?:<(?:[^<>\n\\\x00]|\\.)*>)").
Definition reEscapable : regex := re_compile noflags (u "^" ++ ESCAPABLE).
Definition reEntityHere : regex := re_compile IGNORECASE (u "^" ++ ENTITY).
Definition reTicks : regex := re_compile noflags (u "`+").
Definition reTicksHere : regex := re_compile noflags (u "^`+").
Definition reEllipses : regex := re_compile noflags (u "\.\.\.").
Definition reDash : regex := re_compile noflags (u "--+").
Definition reEmailAutolink : regex := re_compile noflags (
  u "^<([a-zA-Z0-9.!#$%&'*+\/=?^_`{|}~-]+@[a-zA-Z0-9]" ++
  u "(?:[a-zA-Z0-9-]{0,61}[a-zA-Z0-9])?" ++
  u "(?:\.[a-zA-Z0-9](?:[a-zA-Z0-9-]{0,61}[a-zA-Z0-9])?)*)>").
Definition reAutolink : regex :=
  re_compile IGNORECASE (u "^<[A-Za-z][A-Za-z0-9.+-]{1,31}:[^<>\x00-\x20]*>").
Definition reSpnl : regex := re_compile noflags (u "^ *(?:\n *)?").
Definition reWhitespaceChar : regex := re_compile noflags (u "^^[ \t\n\x0b\x0c\x0d]").
Definition reUnicodeWhitespaceChar : regex := re_compile noflags (u "^\s").
Definition reFinalSpace : regex := re_compile noflags (u " *$").
Definition reInitialSpace : regex := re_compile noflags (u "^ *").
Definition reSpaceAtEndOfLine : regex := re_compile noflags (u "^ *(?:\n|$)").
Definition reLinkLabel : regex := re_compile noflags (u "^\[(?:[^\\\[\]]|\\.){0,1000}\]").
Definition reMain : regex := re_compile MULTILINE (u "^[^\n`\[\]\\!<&*_'""]+").

(** ** State *)

(** An entry of the delimiter stack, inlines.py 330-339; [d_node] is the identity of its
    text node, and serves as the identity of the entry ([previous]/[next] are positions in
    the list). *)
Record delim := DL {
  d_cc : N; d_num : nat; d_orig : nat; d_node : nat; d_can_open : bool; d_can_close : bool }.
Definition set_d_num (v : nat) (x : delim) : delim :=
  DL (d_cc x) v (d_orig x) (d_node x) (d_can_open x) (d_can_close x).

(** An entry of the bracket stack, inlines.py 695-702.  Line 693 writes a key
    ['bracketAfter'], line 636 reads ['bracket_after'], which no one writes: the read is
    modelled as None, and the written key has no reader and is left out. *)
Record bracket := BK {
  b_node : nat; b_prevdelim : option nat; b_index : nat; b_image : bool; b_active : bool }.
Definition set_b_active (v : bool) (x : bracket) : bracket :=
  BK (b_node x) (b_prevdelim x) (b_index x) (b_image x) v.

(** label -> (destination, title) *)
Notation refmap_t := (list (str * (str * str))).

(** [next]: the next fresh identity *)
Record ip := IP {
  ip_subject : str;
  ip_pos : nat;
  ip_refmap : refmap_t;
  ip_smart : bool;
  ip_delims : list delim;
  ip_brackets : list bracket;
  ip_kids : list (nat * tree);
  ip_next : nat }.
Definition set_ip_subject (v : str) (x : ip) : ip := IP v (ip_pos x) (ip_refmap x) (ip_smart x) (ip_delims x) (ip_brackets x) (ip_kids x) (ip_next x).
Definition set_ip_pos (v : nat) (x : ip) : ip := IP (ip_subject x) v (ip_refmap x) (ip_smart x) (ip_delims x) (ip_brackets x) (ip_kids x) (ip_next x).
Definition set_ip_refmap (v : refmap_t) (x : ip) : ip := IP (ip_subject x) (ip_pos x) v (ip_smart x) (ip_delims x) (ip_brackets x) (ip_kids x) (ip_next x).
Definition set_ip_smart (v : bool) (x : ip) : ip := IP (ip_subject x) (ip_pos x) (ip_refmap x) v (ip_delims x) (ip_brackets x) (ip_kids x) (ip_next x).
Definition set_ip_delims (v : list delim) (x : ip) : ip := IP (ip_subject x) (ip_pos x) (ip_refmap x) (ip_smart x) v (ip_brackets x) (ip_kids x) (ip_next x).
Definition set_ip_brackets (v : list bracket) (x : ip) : ip := IP (ip_subject x) (ip_pos x) (ip_refmap x) (ip_smart x) (ip_delims x) v (ip_kids x) (ip_next x).
Definition set_ip_kids (v : list (nat * tree)) (x : ip) : ip := IP (ip_subject x) (ip_pos x) (ip_refmap x) (ip_smart x) (ip_delims x) (ip_brackets x) v (ip_next x).
Definition set_ip_next (v : nat) (x : ip) : ip := IP (ip_subject x) (ip_pos x) (ip_refmap x) (ip_smart x) (ip_delims x) (ip_brackets x) (ip_kids x) v.

(** inlines.py 121-126 *)
Definition new_ip (smart : bool) : ip := IP [] 0 [] smart [] [] [] 0.

(** ** Helpers *)

(** [block.append_child(node)], node.py 119-128 *)
Definition append_kid (t : tree) (s : ip) : ip :=
  set_ip_next (S (ip_next s)) (set_ip_kids (ip_kids s ++ [(ip_next s, t)]) s).

(** inlines.py 86-89 *)
Definition text_data (s : str) : ndata := set_n_literal (Some s) (new_node text None).
Definition text_node (s : str) : tree := T (text_data s) [].

(** inlines.py 92-110 *)
Definition smart_dashes (chars : str) : str :=
  let n := length chars in
  let '(en, em) :=
    if Nat.eqb (n mod 3) 0 then (0, n / 3)
    else if Nat.eqb (n mod 2) 0 then (n / 2, 0)
    else if Nat.eqb (n mod 3) 2 then (1, (n - 2) / 3)
    else (2, (n - 4) / 3) in
  repeat 8212%N em ++ repeat 8211%N en.

(** inlines.py 128-138: [match] *)
Definition ip_match (r : regex) (s : ip) : option (str * ip) :=
  match re_search r (skipn (ip_pos s) (ip_subject s)) with
  | None => None
  | Some m => Some (rm_group m, set_ip_pos (ip_pos s + rm_end m) s)
  end.
(** [match] used only for its effect *)
Definition ip_skip (r : regex) (s : ip) : ip :=
  match ip_match r s with Some (_, s') => s' | None => s end.

(** inlines.py 140-146 *)
Definition ip_peek (s : ip) : option N := nth_error (ip_subject s) (ip_pos s).
Definition peek_is (c : N) (s : ip) : bool :=
  match ip_peek s with Some x => N.eqb x c | None => false end.
Definition ip_adv (n : nat) (s : ip) : ip := set_ip_pos (ip_pos s + n) s.

(** inlines.py 148-152 *)
Definition spnl (s : ip) : ip := ip_skip reSpnl s.

(** Python slice [subject[a:b]] *)
Definition slice (a b : nat) (s : str) : str := firstn (b - a) (skipn a s).

(** ** Inline parsers: each returns whether it matched, and the new state *)

(** inlines.py 158-181: [parseBackticks] *)
Fixpoint ticks_loop (fuel : nat) (ticks : str) (after : nat) (s : ip) : res ip :=
  match fuel with
  | O => Err OutOfFuel
  | S f =>
      match ip_match reTicks s with
      | None =>
          Ok (append_kid (text_node ticks) (set_ip_pos after s))
      | Some (matched, s1) =>
          if str_eqb matched ticks
          then
            let contents := replace_char LF SP
                              (slice after (ip_pos s1 - length ticks) (ip_subject s1)) in
            let lit :=
              match strip_left (N.eqb SP) contents, contents with
              | _ :: _, c0 :: _ =>
                  match last_opt contents with
                  | Some cl => if N.eqb c0 SP && N.eqb cl SP then chop_ends contents else contents
                  | None => contents
                  end
              | _, _ => contents
              end in
            Ok (append_kid (T (set_n_literal (Some lit) (new_node code None)) []) s1)
          else ticks_loop f ticks after s1
      end
  end.
Definition parseBackticks (s : ip) : res (bool * ip) :=
  match ip_match reTicksHere s with
  | None => Ok (false, s)
  | Some (ticks, s1) =>
      let* s2 := ticks_loop (S (length (ip_subject s))) ticks (ip_pos s1) s1 in
      Ok (true, s2)
  end.

(** inlines.py 183-208: [parseBackslash] *)
Definition parseBackslash (s : ip) : res (bool * ip) :=
  let s1 := ip_adv 1 s in
  let subjchar := nth_error (ip_subject s1) (ip_pos s1) in
  if peek_is LF s1
  then Ok (true, append_kid (T (new_node linebreak None) []) (ip_adv 1 s1))
  else match subjchar with
       | Some c =>
           if re_test reEscapable [c]
           then Ok (true, ip_adv 1 (append_kid (text_node [c]) s1))
           else Ok (true, append_kid (text_node [92%N]) s1)
       | None => Ok (true, append_kid (text_node [92%N]) s1)
       end.

(** inlines.py 216-222 and 227-233 *)
Definition autolink_node (dest url : str) : tree :=
  T (set_n_title (Some []) (set_n_destination (Some url) (new_node link None))) [text_node dest].

(** inlines.py 210-235: [parseAutolink] *)
Definition parseAutolink (s : ip) : res (bool * ip) :=
  match ip_match reEmailAutolink s with
  | Some (m, s1) =>
      let dest := chop_ends m in
      let* url := normalize_uri (u "mailto:" ++ dest) in
      Ok (true, append_kid (autolink_node dest url) s1)
  | None =>
      match ip_match reAutolink s with
      | Some (m, s1) =>
          let dest := chop_ends m in
          let* url := normalize_uri dest in
          Ok (true, append_kid (autolink_node dest url) s1)
      | None => Ok (false, s)
      end
  end.

(** inlines.py 237-246: [parseHtmlTag] *)
Definition parseHtmlTag (s : ip) : res (bool * ip) :=
  match ip_match reHtmlTag s with
  | None => Ok (false, s)
  | Some (m, s1) =>
      Ok (true, append_kid (T (set_n_literal (Some m) (new_node html_inline None)) []) s1)
  end.

(** inlines.py 248-309: [scanDelims]; None or (numdelims, can_open, can_close) *)
Definition scanDelims (c : N) (s : ip) : option (nat * bool * bool) :=
  let rest := skipn (ip_pos s) (ip_subject s) in
  let numdelims :=
    if N.eqb c 39 || N.eqb c 34 then 1 else length (take_while (N.eqb c) rest) in
  if Nat.eqb numdelims 0 then None
  else
    let c_before := if Nat.eqb (ip_pos s) 0 then LF else nth (ip_pos s - 1) (ip_subject s) LF in
    let c_after := nth (ip_pos s + numdelims) (ip_subject s) LF in
    let after_is_whitespace := re_test reUnicodeWhitespaceChar [c_after] || N.eqb c_after 160 in
    let after_is_punctuation := re_test rePunctuation [c_after] in
    let before_is_whitespace := re_test reUnicodeWhitespaceChar [c_before] || N.eqb c_before 160 in
    let before_is_punctuation := re_test rePunctuation [c_before] in
    let left_flanking := negb after_is_whitespace &&
      (negb after_is_punctuation || before_is_whitespace || before_is_punctuation) in
    let right_flanking := negb before_is_whitespace &&
      (negb before_is_punctuation || after_is_whitespace || after_is_punctuation) in
    let '(can_open, can_close) :=
      if N.eqb c 95 then
        (left_flanking && (negb right_flanking || before_is_punctuation),
         right_flanking && (negb left_flanking || after_is_punctuation))
      else if N.eqb c 39 || N.eqb c 34 then
        (left_flanking && negb right_flanking, right_flanking)
      else (left_flanking, right_flanking) in
    Some (numdelims, can_open, can_close).

(** inlines.py 311-342: [handleDelim] *)
Definition handleDelim (cc : N) (s : ip) : res (bool * ip) :=
  match scanDelims cc s with
  | None => Ok (false, s)
  | Some (numdelims, can_open, can_close) =>
      let startpos := ip_pos s in
      let s1 := ip_adv numdelims s in
      let contents := if N.eqb cc 39 then [8217%N]
                      else if N.eqb cc 34 then [8220%N]
                      else slice startpos (ip_pos s1) (ip_subject s1) in
      let id := ip_next s1 in
      let s2 := append_kid (text_node contents) s1 in
      Ok (true, set_ip_delims
                  (DL cc numdelims numdelims id can_open can_close :: ip_delims s2) s2)
  end.

(** ** Emphasis, inlines.py 344-476 *)

Definition id_eqb (a b : option nat) : bool := opt_eqb Nat.eqb a b.
Definition hd_id (l : list delim) : option nat :=
  match l with [] => None | d :: _ => Some (d_node d) end.

(** inlines.py 369-372: going down the stack to the first entry above [stack_bottom].
    Result: (entries below the closer, nearest first; the closer and the entries above it,
    nearest first). *)
Fixpoint first_closer (bottom : option nat) (l above : list delim) : list delim * list delim :=
  match l with
  | [] => ([], [])
  | d :: rest => if id_eqb (hd_id rest) bottom then (rest, d :: above)
                 else first_closer bottom rest (d :: above)
  end.

(** inlines.py 360-365: [openers_bottom] *)
Record obottom := OB { ob_us : option nat; ob_st : option nat; ob_sq : option nat; ob_dq : option nat }.
Definition ob_get (cc : N) (o : obottom) : option nat :=
  if N.eqb cc 95 then ob_us o else if N.eqb cc 42 then ob_st o
  else if N.eqb cc 39 then ob_sq o else ob_dq o.
Definition ob_set (cc : N) (v : option nat) (o : obottom) : obottom :=
  if N.eqb cc 95 then OB v (ob_st o) (ob_sq o) (ob_dq o)
  else if N.eqb cc 42 then OB (ob_us o) v (ob_sq o) (ob_dq o)
  else if N.eqb cc 39 then OB (ob_us o) (ob_st o) v (ob_dq o)
  else OB (ob_us o) (ob_st o) (ob_sq o) v.

(** inlines.py 381-396: looking back for an opener; the found opener with the entries
    below it, and the last value of [odd_match] (which keeps its old value if no entry
    is looked at). *)
Fixpoint find_opener (closer : delim) (bottom ob : option nat) (l : list delim) (odd : bool)
  : option (delim * list delim) * bool :=
  match l with
  | [] => (None, odd)
  | o :: l' =>
      if id_eqb (Some (d_node o)) bottom || id_eqb (Some (d_node o)) ob then (None, odd)
      else
        let odd' := (d_can_open closer || d_can_close o)
                    && negb (Nat.eqb (d_orig closer mod 3) 0)
                    && Nat.eqb ((d_orig o + d_orig closer) mod 3) 0 in
        if N.eqb (d_cc o) (d_cc closer) && d_can_open o && negb odd'
        then (Some (o, l'), odd')
        else find_opener closer bottom ob l' odd'
  end.

(** Siblings before, the node itself, siblings after the node with identity [id] *)
Fixpoint split_kid (id : nat) (ks : list (nat * tree)) : option (list (nat * tree) * tree * list (nat * tree)) :=
  match ks with
  | [] => None
  | (i, t) :: ks' =>
      if Nat.eqb i id then Some ([], t, ks')
      else match split_kid id ks' with
           | Some (a, x, b) => Some ((i, t) :: a, x, b)
           | None => None
           end
  end.

(** [node.literal = v] *)
Definition put_literal (v : str) (t : tree) : tree :=
  T (set_n_literal (Some v) (t_data t)) (t_kids t).

(** [node.literal = v] for the sibling with identity [id] *)
Definition put_kid_literal (id : nat) (v : str) (ks : list (nat * tree)) : res (list (nat * tree)) :=
  match split_kid id ks with
  | Some (a, x, b) => Ok (a ++ (id, put_literal v x) :: b)
  | None => Err Impossible
  end.

(** [node.literal[:len(node.literal) - n]]; a literal at least [n] long (an invariant) *)
Definition cut_literal (n : nat) (t : tree) : res tree :=
  match n_literal (t_data t) with
  | Some l => Ok (put_literal (firstn (length l - n) l) t)
  | None => Err TypeError
  end.

(** inlines.py 403-448, the part acting on nodes: shorten both delimiter texts, move the
    nodes between them into a new emph/strong node after the opener, drop empty texts.
    [eid] is the identity of the new node. *)
Definition wrap_emph (use : nat) (oid cid eid : nat) (drop_o drop_c : bool) (ks : list (nat * tree))
  : res (list (nat * tree)) :=
  match split_kid oid ks with
  | None => Err Impossible
  | Some (pre, onode, after) =>
      match split_kid cid after with
      | None => Err Impossible
      | Some (mid, cnode, post) =>
          let* onode' := cut_literal use onode in
          let* cnode' := cut_literal use cnode in
          let e := T (new_node (if Nat.eqb use 1 then emph else strong) None) (map snd mid) in
          Ok (pre ++ (if drop_o then [] else [(oid, onode')]) ++ [(eid, e)] ++
              (if drop_c then [] else [(cid, cnode')]) ++ post)
      end
  end.

Record pe := PE {
  pe_left : list delim;       (* entries below the closer, nearest first *)
  pe_cur : list delim;        (* the closer and the entries above it, nearest first *)
  pe_ob : obottom;
  pe_odd : bool;
  pe_kids : list (nat * tree);
  pe_next : nat }.

(** inlines.py 375-472: one iteration of the loop on a closer [c] with entries [rgt] above *)
Definition pe_step (bottom : option nat) (c : delim) (rgt : list delim) (p : pe) : res pe :=
  let lft := pe_left p in
  if negb (d_can_close c)
  then Ok (PE (c :: lft) rgt (pe_ob p) (pe_odd p) (pe_kids p) (pe_next p))
  else
    let '(found, odd) := find_opener c bottom (ob_get (d_cc c) (pe_ob p)) lft (pe_odd p) in
    (* lines 462-472 for the case that no opener was found *)
    let not_found ks :=
      if negb odd
      then Ok (PE (if d_can_open c then c :: lft else lft) rgt
                  (ob_set (d_cc c) (hd_id lft) (pe_ob p)) odd ks (pe_next p))
      else Ok (PE (c :: lft) rgt (pe_ob p) odd ks (pe_next p)) in
    if N.eqb (d_cc c) 42 || N.eqb (d_cc c) 95
    then
      match found with
      | None => not_found (pe_kids p)
      | Some (o, below) =>
          let use := if Nat.leb 2 (d_num c) && Nat.leb 2 (d_num o) then 2 else 1 in
          let o' := set_d_num (d_num o - use) o in
          let c' := set_d_num (d_num c - use) c in
          let drop_o := Nat.eqb (d_num o') 0 in
          let drop_c := Nat.eqb (d_num c') 0 in
          let* ks := wrap_emph use (d_node o) (d_node c) (pe_next p) drop_o drop_c (pe_kids p) in
          Ok (PE (if drop_o then below else o' :: below)
                 (if drop_c then rgt else c' :: rgt)
                 (pe_ob p) odd ks (S (pe_next p)))
      end
    else
      let '(qc, qo) := if N.eqb (d_cc c) 39 then (8217%N, 8216%N) else (8221%N, 8220%N) in
      let* ks := put_kid_literal (d_node c) [qc] (pe_kids p) in
      match found with
      | None => not_found ks
      | Some (o, _) =>
          let* ks' := put_kid_literal (d_node o) [qo] ks in
          Ok (PE (c :: lft) rgt (pe_ob p) odd ks' (pe_next p))
      end.

(** inlines.py 374-472: the loop over closers *)
Fixpoint pe_loop (fuel : nat) (bottom : option nat) (p : pe) : res pe :=
  match pe_cur p with
  | [] => Ok p
  | c :: rgt =>
      match fuel with
      | O => Err OutOfFuel
      | S f => let* p' := pe_step bottom c rgt p in pe_loop f bottom p'
      end
  end.

Definition delims_measure (l : list delim) : nat := fold_right (fun d n => S (d_num d) + n) 0 l.

(** inlines.py 474-476: removing the entries above [stack_bottom] *)
Fixpoint drop_to (bottom : option nat) (l : list delim) : list delim :=
  match l with
  | [] => []
  | d :: l' => if id_eqb (Some (d_node d)) bottom then l else drop_to bottom l'
  end.

(** inlines.py 359-476: [processEmphasis] on the siblings [ks] that hold the delimiter
    nodes (the children of the block, or of the link just built). *)
Definition processEmphasis (bottom : option nat) (ds : list delim) (ks : list (nat * tree)) (next : nat)
  : res (list delim * list (nat * tree) * nat) :=
  let '(lft, cur) := first_closer bottom ds [] in
  match cur with
  | [] => Ok (drop_to bottom ds, ks, next)
  | _ =>
      let* p := pe_loop (S (delims_measure ds)) bottom
                        (PE lft cur (OB bottom bottom bottom bottom) false ks next) in
      Ok (drop_to bottom (pe_left p), pe_kids p, pe_next p)
  end.

(** ** Links *)

(** inlines.py 478-488: [parseLinkTitle] *)
Definition parseLinkTitle (s : ip) : option str * ip :=
  match ip_match reLinkTitle s with
  | None => (None, s)
  | Some (title, s1) => (Some (unescape_string (chop_ends title)), s1)
  end.

(** inlines.py 502-523: the hand-rolled loop; returns the last value of [c] *)
Fixpoint dest_loop (fuel : nat) (openparens : nat) (s : ip) : res (option N * ip) :=
  match fuel with
  | O => Err OutOfFuel
  | S f =>
      match ip_peek s with
      | None => Ok (None, s)
      | Some c =>
          if N.eqb c 92 && re_test reEscapable (slice (ip_pos s + 1) (ip_pos s + 2) (ip_subject s))
          then let s1 := ip_adv 1 s in
               dest_loop f openparens (match ip_peek s1 with Some _ => ip_adv 1 s1 | None => s1 end)
          else if N.eqb c 40 then dest_loop f (S openparens) (ip_adv 1 s)
          else if N.eqb c 41 then
            match openparens with
            | O => Ok (Some c, s)
            | S n => dest_loop f n (ip_adv 1 s)
            end
          else if re_test reWhitespaceChar [c] then Ok (Some c, s)
          else dest_loop f openparens (ip_adv 1 s)
      end
  end.

(** inlines.py 490-530: [parseLinkDestination] *)
Definition parseLinkDestination (s : ip) : res (option str * ip) :=
  match ip_match reLinkDestinationBraces s with
  | Some (m, s1) =>
      let* d := normalize_uri (unescape_string (chop_ends m)) in Ok (Some d, s1)
  | None =>
      if peek_is 60 s then Ok (None, s)
      else
        let savepos := ip_pos s in
        let* (c, s1) := dest_loop (S (length (ip_subject s))) 0 s in
        if Nat.eqb (ip_pos s1) savepos && negb (opt_eqb N.eqb c (Some 41%N))
        then Ok (None, s1)
        else
          let* d := normalize_uri (unescape_string (slice savepos (ip_pos s1) (ip_subject s1))) in
          Ok (Some d, s1)
  end.

(** inlines.py 532-543: [parseLinkLabel] *)
Definition parseLinkLabel (s : ip) : nat * ip :=
  match ip_match reLinkLabel s with
  | None => (0, s)
  | Some (m, s1) => if Nat.ltb 1001 (length m) then (0, s1) else (length m, s1)
  end.

(** inlines.py 691-702: [addBracket] *)
Definition addBracket (node : nat) (index : nat) (image : bool) (s : ip) : ip :=
  set_ip_brackets (BK node (hd_id (ip_delims s)) index image true :: ip_brackets s) s.

(** inlines.py 704-705: [removeBracket] *)
Definition removeBracket (s : ip) : ip := set_ip_brackets (tl (ip_brackets s)) s.

(** inlines.py 545-558: [parseOpenBracket] *)
Definition parseOpenBracket (s : ip) : res (bool * ip) :=
  let startpos := ip_pos s in
  let s1 := ip_adv 1 s in
  let id := ip_next s1 in
  Ok (true, addBracket id startpos false (append_kid (text_node [91%N]) s1)).

(** inlines.py 560-579: [parseBang] *)
Definition parseBang (s : ip) : res (bool * ip) :=
  let startpos := ip_pos s in
  let s1 := ip_adv 1 s in
  if peek_is 91 s1
  then let s2 := ip_adv 1 s1 in
       let id := ip_next s2 in
       Ok (true, addBracket id (startpos + 1) true (append_kid (text_node [33%N; 91%N]) s2))
  else Ok (true, append_kid (text_node [33%N]) s1).

(** inlines.py 615-628: inline link tail; Some (dest, title) if matched *)
Definition inline_tail (s : ip) : res (option (str * option str) * ip) :=
  if peek_is 40 s
  then
    let savepos := ip_pos s in
    let s1 := spnl (ip_adv 1 s) in
    let* (dest, s2) := parseLinkDestination s1 in
    match dest with
    | Some d =>
        let s3 := spnl s2 in
        let* prevc := of_option IndexError (nth_error (ip_subject s3) (ip_pos s3 - 1)) in
        let '(title, s4) := if re_test reWhitespaceChar [prevc] then parseLinkTitle s3
                            else (None, s3) in
        let s5 := spnl s4 in
        if peek_is 41 s5 then Ok (Some (d, title), ip_adv 1 s5)
        else Ok (None, s5)               (* the position is not reset here *)
    | None => Ok (None, set_ip_pos savepos s2)
    end
  else Ok (None, s).

(** inlines.py 630-652: reference link *)
Definition reference_tail (opener : bracket) (startpos savepos : nat) (s : ip)
  : option (str * option str) * ip :=
  let beforelabel := ip_pos s in
  let '(n, s1) := parseLinkLabel s in
  let reflabel := if Nat.ltb 2 n then slice beforelabel (beforelabel + n) (ip_subject s1)
                  else slice (b_index opener) startpos (ip_subject s1) in
  let s2 := if Nat.eqb n 0 then set_ip_pos savepos s1 else s1 in
  if is_nil reflabel then (None, s2)
  else match assoc_str (normalize_reference reflabel) (ip_refmap s2) with
       | Some (dest, title) => (Some (dest, Some title), s2)
       | None => (None, s2)
       end.

(** inlines.py 654-682: building the link or image *)
Definition make_link (opener : bracket) (dest : str) (title : option str) (s : ip) : res ip :=
  match split_kid (b_node opener) (ip_kids s) with
  | None => Err Impossible
  | Some (pre, _, post) =>
      let id := ip_next s in
      let* (ds, ks, next) := processEmphasis (b_prevdelim opener) (ip_delims s) post (S id) in
      let node := T (set_n_title (Some (or_empty title))
                       (set_n_destination (Some dest)
                          (new_node (if b_image opener then image else link) None)))
                    (map snd ks) in
      let s1 := removeBracket
                  (set_ip_next next (set_ip_kids (pre ++ [(id, node)]) (set_ip_delims ds s))) in
      Ok (if b_image opener then s1
          else set_ip_brackets
                 (map (fun b => if b_image b then b else set_b_active false b) (ip_brackets s1)) s1)
  end.

(** inlines.py 581-689: [parseCloseBracket] *)
Definition parseCloseBracket (s0 : ip) : res (bool * ip) :=
  let s := ip_adv 1 s0 in
  let startpos := ip_pos s in
  match ip_brackets s with
  | [] => Ok (true, append_kid (text_node [93%N]) s)
  | opener :: _ =>
      if negb (b_active opener)
      then Ok (true, removeBracket (append_kid (text_node [93%N]) s))
      else
        let savepos := ip_pos s in
        let* (tail, s1) := inline_tail s in
        let '(tail, s2) := match tail with
                           | Some x => (Some x, s1)
                           | None => reference_tail opener startpos savepos s1
                           end in
        match tail with
        | Some (dest, title) => let* s3 := make_link opener dest title s2 in Ok (true, s3)
        | None => Ok (true, append_kid (text_node [93%N]) (set_ip_pos startpos (removeBracket s2)))
        end
  end.

(** ** Other inlines *)

(** inlines.py 707-714: [parseEntity] *)
Definition parseEntity (s : ip) : res (bool * ip) :=
  match ip_match reEntityHere s with
  | Some (m, s1) => Ok (true, append_kid (text_node (html_unescape m)) s1)
  | None => Ok (false, s)
  end.

(** inlines.py 716-731: [parseString] *)
Definition parseString (s : ip) : res (bool * ip) :=
  match ip_match reMain s with
  | Some (m, s1) =>
      if ip_smart s
      then let t := re_sub reDash (fun x => smart_dashes (rm_group x))
                           (re_sub reEllipses (fun _ => [8230%N]) m) in
           Ok (true, append_kid (text_node t) s1)
      else Ok (true, append_kid (text_node m) s1)
  | None => Ok (false, s)
  end.

(** inlines.py 740-750: what [parseNewline] appends, and the change to the last child *)
Definition newline_kids (s : ip) : res ip :=
  match last_opt (ip_kids s) with
  | Some (id, T d k) =>
      if ntype_eqb (n_t d) text
      then
        let* l := of_option TypeError (n_literal d) in
        let* c1 := of_option IndexError (last_opt l) in
        if N.eqb c1 SP
        then
          let hard := match last_opt (removelast l) with Some c2 => N.eqb c2 SP | None => false end in
          let d' := set_n_literal (Some (re_sub reFinalSpace (fun _ => []) l)) d in
          Ok (append_kid (T (new_node (if hard then linebreak else softbreak) None) [])
                (set_ip_kids (removelast (ip_kids s) ++ [(id, T d' k)]) s))
        else Ok (append_kid (T (new_node softbreak None) []) s)
      else Ok (append_kid (T (new_node softbreak None) []) s)
  | None => Ok (append_kid (T (new_node softbreak None) []) s)
  end.
(** inlines.py 733-754: [parseNewline] *)
Definition parseNewline (s : ip) : res (bool * ip) :=
  let* s1 := newline_kids (ip_adv 1 s) in
  Ok (true, ip_skip reInitialSpace s1).

(** inlines.py 756-824: [parseReference]; returns the number of characters consumed (0: none),
    the new state and the new reference map *)
Definition parseReference (subj : str) (refmap : refmap_t) (s : ip) : res (nat * ip * refmap_t) :=
  let s0 := set_ip_pos 0 (set_ip_subject subj s) in
  let fail (x : ip) : res (nat * ip * refmap_t) := Ok (0, set_ip_pos 0 x, refmap) in
  let '(n, s1) := parseLinkLabel s0 in
  if Nat.eqb n 0 || Nat.eqb n 2 then Ok (0, s1, refmap)
  else
    let rawlabel := firstn n subj in
    if negb (peek_is 58 s1) then fail s1
    else
      let s2 := spnl (ip_adv 1 s1) in
      let* (dest, s3) := parseLinkDestination s2 in
      match dest with
      | None => fail s3
      | Some dest =>
          let beforetitle := ip_pos s3 in
          let s4 := spnl s3 in
          let '(title0, s5) := if Nat.eqb (ip_pos s4) beforetitle then (None, s4)
                               else parseLinkTitle s4 in
          let '(title, s6) := match title0 with
                              | None => ([], set_ip_pos beforetitle s5)
                              | Some t => (t, s5)
                              end in
          let '(at_line_end, s7) :=
            match ip_match reSpaceAtEndOfLine s6 with
            | Some (_, x) => (true, x)
            | None =>
                if is_nil title then (false, s6)
                else
                  (* line 803 compares instead of assigning: the title is kept *)
                  match ip_match reSpaceAtEndOfLine (set_ip_pos beforetitle s6) with
                  | Some (_, x) => (true, x)
                  | None => (false, set_ip_pos beforetitle s6)
                  end
            end in
          if negb at_line_end then fail s7
          else
            let normlabel := normalize_reference rawlabel in
            if is_nil normlabel then fail s7
            else
              let refmap' := match assoc_str normlabel refmap with
                             | Some _ => refmap
                             | None => refmap ++ [(normlabel, (dest, title))]
                             end in
              Ok (ip_pos s7, s7, refmap')
      end.

(** inlines.py 826-865: [parseInline]; false at the end of the subject *)
Definition parseInline (s : ip) : res (bool * ip) :=
  match ip_peek s with
  | None => Ok (false, s)
  | Some c =>
      let* (r, s1) :=
        if N.eqb c LF then parseNewline s
        else if N.eqb c 92 then parseBackslash s
        else if N.eqb c 96 then parseBackticks s
        else if N.eqb c 42 || N.eqb c 95 then handleDelim c s
        else if N.eqb c 39 || N.eqb c 34 then
          (if ip_smart s then handleDelim c s else Ok (false, s))
        else if N.eqb c 91 then parseOpenBracket s
        else if N.eqb c 33 then parseBang s
        else if N.eqb c 93 then parseCloseBracket s
        else if N.eqb c 60 then
          (let* (b, s1) := parseAutolink s in if b then Ok (b, s1) else parseHtmlTag s1)
        else if N.eqb c 38 then parseEntity s
        else parseString s in
      if r then Ok (true, s1)
      else Ok (true, append_kid (text_node [c]) (ip_adv 1 s1))
  end.

(** inlines.py 876-877: the loop *)
Fixpoint inline_loop (fuel : nat) (s : ip) : res ip :=
  match fuel with
  | O => Err OutOfFuel
  | S f => let* (more, s1) := parseInline s in if more then inline_loop f s1 else Ok s1
  end.

(** inlines.py 867-878: [parseInlines] on a block with the given content; the new children *)
Definition parseInlines (content : str) (s : ip) : res (list tree * ip) :=
  let subj := strip content in
  let s0 := IP subj 0 (ip_refmap s) (ip_smart s) [] [] [] 0 in
  let* s1 := inline_loop (S (length subj)) s0 in
  let* (ds, ks, next) := processEmphasis None (ip_delims s1) (ip_kids s1) (ip_next s1) in
  Ok (map snd ks, set_ip_delims ds (set_ip_kids ks s1)).
