(** * Lines of words, code spans, references to characters, links, images, addresses and tags (C53) *)
From Verif Require Import Base Regex Common Entities Node Spec SpecTree SpecSame SpecLines SpecParas SpecRefs.

(** ** Links and images *)
(** Their words have no brackets, exclamation marks and quotation marks *)
Definition link_char (c : N) : Prop := ordinary_char c /\ ~ In c [33; 34; 39; 93]%N.
(** Destinations are made of letters, digits and marks; parentheses are balanced, or the
    destination stands in angle brackets *)
Definition dest_char (c : N) : Prop := url_char c \/ In c (u ":@,;()").
Fixpoint balanced (depth : nat) (d : str) : bool :=
  match d with
  | [] => Nat.eqb depth 0
  | c :: d' =>
      if N.eqb c 40 then balanced (S depth) d'
      else if N.eqb c 41 then match depth with O => false | S n => balanced n d' end
      else balanced depth d'
  end.
Inductive dest := Bare (d : str) | Angled (d : str).
Definition dest_text (x : dest) : str := match x with Bare d => d | Angled d => u "<" ++ d ++ u ">" end.
Definition dest_of (x : dest) : str := match x with Bare d | Angled d => d end.
Definition dest_ok (x : dest) : Prop := Forall dest_char (dest_of x) /\ match x with Bare d => d <> [] /\ balanced 0 d = true | Angled _ => True end.
(** A title stands between quotation marks or in parentheses, behind one or more spaces *)
Record title := TI { ti_gap : nat; ti_open : N; ti_text : str; ti_close : N }.
Definition title_ok (t : title) : Prop :=
  1 <= ti_gap t /\ In (ti_open t, ti_close t) [(34, 34); (39, 39); (40, 41)]%N /\
  Forall (fun c => ordinary_char c /\ ~ In c [34; 39; 40; 41]%N) (ti_text t).
Definition title_text (t : option title) : str :=
  match t with None => [] | Some t => repeat 32%N (ti_gap t) ++ [ti_open t] ++ ti_text t ++ [ti_close t] end.
Definition title_html (t : option title) : str :=
  match t with
  | None => []
  | Some t => match ti_text t with [] => [] | _ => u " title=" ++ [34%N] ++ html_text (ti_text t) ++ [34%N] end
  end.

(** ** Tags *)
Definition ascii_letter (c : N) : Prop := (65 <= c <= 90)%N \/ (97 <= c <= 122)%N.
Definition tag_name (n : str) : Prop := exists c r, n = c :: r /\ ascii_letter c /\ Forall (fun x => word_char x \/ x = 45%N) r.
Definition attr_name (n : str) : Prop :=
  exists c r, n = c :: r /\ (ascii_letter c \/ In c (u "_:")) /\ Forall (fun x => word_char x \/ In x (u ":._-")) r.
(** The value of an attribute: a word, or any text without the quotation mark around it *)
Inductive value := Unquoted (v : str) | Quoted (mark : N) (v : str).
Definition value_ok (v : value) : Prop :=
  match v with
  | Unquoted w => w <> [] /\ Forall (fun c => (32 < c)%N /\ c <> 10%N /\ c <> 13%N /\ ~ In c ([34%N] ++ u "'=<>`")) w
  | Quoted m w => (m = 34%N \/ m = 39%N) /\ ~ In m w /\ no_eol w /\ ~ In 0%N w
  end.
Definition value_text (v : value) : str := match v with Unquoted w => w | Quoted m w => [m] ++ w ++ [m] end.
(** spaces, the name, and perhaps spaces, an equals sign, spaces and a value *)
Record attr := AT { at_gap : nat; at_name : str; at_value : option (nat * nat * value) }.
Definition attr_ok (a : attr) : Prop :=
  1 <= at_gap a /\ attr_name (at_name a) /\ match at_value a with None => True | Some (_, _, v) => value_ok v end.
Definition attr_written (a : attr) : str :=
  repeat 32%N (at_gap a) ++ at_name a ++
  match at_value a with None => [] | Some (i, j, v) => repeat 32%N i ++ u "=" ++ repeat 32%N j ++ value_text v end.

(** ** Addresses *)
Definition scheme_char (c : N) : Prop := word_char c \/ In c (u "+.-").
Definition label_ok (l : str) : Prop := l <> [] /\ length l <= 63 /\ Forall word_char l.
Definition domain_text (ls : list str) : str := match ls with [] => [] | l :: ls' => l ++ flat_map (fun x => u "." ++ x) ls' end.

(** ** Pieces *)
Inductive piece :=
| Code (n : nat) (t l : str)                (** [t] between [n] backquotes; the code is [l] *)
| Escaped (c : N)                           (** behind a backslash *)
| Decimal (ds : str) (n : N)                (** the character of a number *)
| Hexadecimal (x : N) (ds : str) (n : N)
| Named (name v : str)                      (** the text [v] of a name of the HTML5 table *)
| Link (is_image : bool) (w : str) (i : nat) (d : dest) (t : option title) (j : nat)
| Address (scheme rest : str)
| Mail (name : str) (domain : list str)
| Opening (name : str) (attrs : list attr) (gap : nat) (closed : bool)
| Closing (name : str) (gap : nat).
Definition piece_ok (p : piece) : Prop :=
  match p with
  | Code n t l => 0 < n /\ no_ticks_run n t /\ no_eol t /\ ~ In 0%N t /\ code_span_text t l
  | Escaped c => ascii_punct c = true
  | Decimal ds n => 1 <= length ds <= 7 /\ number_of dec_digit 10 0 ds = Some n
  | Hexadecimal x ds n => (x = 120 \/ x = 88)%N /\ 1 <= length ds <= 6 /\ number_of hex_digit_val 16 0 ds = Some n
  | Named name v => In (name ++ u ";", v) html5_table /\ (exists c r, name = c :: r /\ ascii_letter c /\ 1 <= length r <= 31 /\ Forall word_char r)
  | Link _ w _ d t _ => Forall link_char w /\ dest_ok d /\ match t with None => True | Some t => title_ok t end
  | Address scheme rest =>
      (exists c r, scheme = c :: r /\ ascii_letter c /\ 1 <= length r <= 31 /\ Forall scheme_char r) /\ Forall dest_char rest
  | Mail name domain => name <> [] /\ Forall (fun c => word_char c \/ In c (u ".+-_")) name /\ domain <> [] /\ Forall label_ok domain
  | Opening name attrs _ _ => tag_name name /\ Forall attr_ok attrs
  | Closing name _ => tag_name name
  end.
Definition piece_text (p : piece) : str :=
  match p with
  | Code n t _ => repeat 96%N n ++ t ++ repeat 96%N n
  | Escaped c => [92%N; c]
  | Decimal ds _ => u "&#" ++ ds ++ u ";"
  | Hexadecimal x ds _ => u "&#" ++ [x] ++ ds ++ u ";"
  | Named name _ => u "&" ++ name ++ u ";"
  | Link im w i d t j =>
      (if im then u "!" else []) ++ u "[" ++ w ++ u "](" ++ repeat 32%N i ++ dest_text d ++ title_text t ++ repeat 32%N j ++ u ")"
  | Address scheme rest => u "<" ++ scheme ++ u ":" ++ rest ++ u ">"
  | Mail name domain => u "<" ++ name ++ u "@" ++ domain_text domain ++ u ">"
  | Opening name attrs gap closed => u "<" ++ name ++ flat_map attr_written attrs ++ repeat 32%N gap ++ (if closed then u "/" else []) ++ u ">"
  | Closing name gap => u "</" ++ name ++ repeat 32%N gap ++ u ">"
  end.
(** Tags stand in the output as they are (outside safe mode) *)
Definition piece_html (p : piece) : str :=
  match p with
  | Code _ _ l => u "<code>" ++ html_text l ++ u "</code>"
  | Escaped c => html_text [c]
  | Decimal _ n | Hexadecimal _ _ n => html_text (number_text n)
  | Named _ v => html_text v
  | Link false w _ d t _ => u "<a href=" ++ [34%N] ++ dest_of d ++ [34%N] ++ title_html t ++ u ">" ++ html_text w ++ u "</a>"
  | Link true w _ d t _ => u "<img src=" ++ [34%N] ++ dest_of d ++ [34%N] ++ u " alt=" ++ [34%N] ++ html_text w ++ [34%N] ++ title_html t ++ u " />"
  | Address scheme rest => u "<a href=" ++ [34%N] ++ scheme ++ u ":" ++ rest ++ [34%N] ++ u ">" ++ scheme ++ u ":" ++ rest ++ u "</a>"
  | Mail name domain => u "<a href=" ++ [34%N] ++ u "mailto:" ++ name ++ u "@" ++ domain_text domain ++ [34%N] ++ u ">" ++ name ++ u "@" ++ domain_text domain ++ u "</a>"
  | Opening _ _ _ _ | Closing _ _ => piece_text p
  end.

(** Words, and pieces each followed by words, which may be missing.  Two code spans do not touch,
    and a link does not follow an exclamation mark. *)
Definition pieces_text (l : list (piece * str)) : str := flat_map (fun x => piece_text (fst x) ++ snd x) l.
Fixpoint pieces_ok (l : list (piece * str)) : Prop :=
  match l with
  | [] => True
  | (p, w) :: l' =>
      piece_ok p /\ Forall ordinary_char w /\
      match p with Code _ _ _ => hd_error (w ++ pieces_text l') <> Some 96%N | _ => True end /\
      (hd_error (pieces_text l') = Some 91%N -> last_opt w <> Some 33%N) /\
      pieces_ok l'
  end.
Definition line_ok (w : str) (l : list (piece * str)) : Prop :=
  w <> [] /\ Forall ordinary_char w /\ (forall c, hd_error w = Some c -> is_space c = false /\ ~ block_char c) /\ ~ list_number w /\
  (hd_error (pieces_text l) = Some 91%N -> last_opt w <> Some 33%N) /\ pieces_ok l /\
  (forall c, last_opt (w ++ pieces_text l) = Some c -> is_space c = false).
Definition line_html (w : str) (l : list (piece * str)) : str := html_text w ++ flat_map (fun x => piece_html (fst x) ++ html_text (snd x)) l.
