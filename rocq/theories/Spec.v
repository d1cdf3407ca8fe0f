(** * Specifications used in the theorem statements

    Nothing here refers to the model of the code: only to strings (lists of code points). *)
From Verif Require Import Base.
Local Open Scope N_scope.

(** ** Escaped text (C04) *)

(** The four entities [escape_xml] may write, without the '&' *)
Definition entity_names : list str := [u "amp;"; u "lt;"; u "gt;"; u "quot;"].

(** No markup character is left, and every '&' starts one of the four entities. *)
Definition escaped (s : str) : Prop :=
  ~ In 60 s /\ ~ In 62 s /\ ~ In 34 s /\
  forall p r, s = p ++ 38 :: r -> exists e r', In e entity_names /\ r = e ++ r'.

(** Reading the four entities back *)
Fixpoint decode_xml (s : str) : str :=
  match s with
  | 38 :: 97 :: 109 :: 112 :: 59 :: r => 38 :: decode_xml r
  | 38 :: 108 :: 116 :: 59 :: r => 60 :: decode_xml r
  | 38 :: 103 :: 116 :: 59 :: r => 62 :: decode_xml r
  | 38 :: 113 :: 117 :: 111 :: 116 :: 59 :: r => 34 :: decode_xml r
  | c :: r => c :: decode_xml r
  | [] => []
  end.

(** ** Balanced HTML (C05, C06, C07) *)

Definition element_names : list str :=
  [u "p"; u "em"; u "strong"; u "a"; u "code"; u "pre"; u "blockquote"; u "ul"; u "ol"; u "li";
   u "h1"; u "h2"; u "h3"; u "h4"; u "h5"; u "h6"].
Definition void_names : list str := [u "br"; u "hr"].
Definition attr_names : list str := [u "data-sourcepos"; u "href"; u "title"; u "class"; u "start"].

(** [ name="value"] *)
Definition attr_str (a : str * str) : str := u " " ++ fst a ++ u "=""" ++ snd a ++ u """".
Definition attrs_str (l : list (str * str)) : str := flat_map attr_str l.

Section Html.
  (** [raw]: texts that may appear verbatim; [url]: texts that may be an href or src *)
  Variable raw : str -> Prop.
  Variable url : str -> Prop.

  Definition good_attr (a : str * str) : Prop :=
    In (fst a) attr_names /\ escaped (snd a) /\ (fst a = u "href" -> url (snd a)).
  Definition good_attrs (l : list (str * str)) : Prop := Forall good_attr l.

  (** What may stand in an alt attribute: escaped text and the raw texts *)
  Inductive alt_text : str -> Prop :=
  | alt_nil : alt_text []
  | alt_esc s t : escaped s -> alt_text t -> alt_text (s ++ t)
  | alt_raw r t : raw r -> alt_text t -> alt_text (r ++ t).

  (** Properly nested markup *)
  Inductive balanced : str -> Prop :=
  | bal_nil : balanced []
  | bal_text s t : escaped s -> balanced t -> balanced (s ++ t)
  | bal_raw r t : raw r -> balanced t -> balanced (r ++ t)
  | bal_void n attrs t :
      In n void_names -> good_attrs attrs -> balanced t ->
      balanced ((u "<" ++ n ++ attrs_str attrs ++ u " />") ++ t)
  | bal_img src alt title t :
      url src -> escaped src -> alt_text alt -> escaped title -> balanced t ->
      balanced ((u "<img src=""" ++ src ++ u """ alt=""" ++ alt ++ u """ title=""" ++ title ++ u """ />") ++ t)
  | bal_img_no_title src alt t :
      url src -> escaped src -> alt_text alt -> balanced t ->
      balanced ((u "<img src=""" ++ src ++ u """ alt=""" ++ alt ++ u """ />") ++ t)
  | bal_elem n attrs body t :
      In n element_names -> good_attrs attrs -> balanced body -> balanced t ->
      balanced ((u "<" ++ n ++ attrs_str attrs ++ u ">") ++ body ++ (u "</" ++ n ++ u ">") ++ t).
End Html.

(** ** Unsafe URLs (C07) *)

Definition ascii_lower (c : N) : N := if in_range 65 90 c then c + 32 else c.
(** [s] starts with [w], up to the case of ASCII letters; [w] is lower case *)
Definition ci_prefix (w s : str) : Prop :=
  exists a b, s = a ++ b /\ map ascii_lower a = w.
Definition ci_infix (w s : str) : Prop := exists p q, s = p ++ q /\ ci_prefix w q.

(** The letters U+0130 and U+0131 count as "i" in the test for allowed data: URLs (Python's
    IGNORECASE makes them match); destinations of parsed documents are ASCII. *)
Definition lower_i (c : N) : N := if N.eqb c 304 || N.eqb c 305 then 105 else ascii_lower c.
Definition safe_data_url (d : str) : Prop :=
  exists k a b, In k [u "png"; u "gif"; u "jpeg"; u "webp"] /\
                d = a ++ b /\ map lower_i a = u "data:image/" ++ k.
(** What C07 promises of a destination that is written out *)
Definition safe_url (d : str) : Prop :=
  ~ ci_prefix (u "javascript:") d /\
  (~ safe_data_url d ->
   ~ ci_infix (u "vbscript:") d /\ ~ ci_infix (u "file:") d /\ ~ ci_infix (u "data:") d).

Definition omitted_comment : str := u "<!-- raw HTML omitted -->".

(** ** ASCII punctuation (C19, C46) *)
Definition ascii_punct (c : N) : bool :=
  in_range 33 47 c || in_range 58 64 c || in_range 91 96 c || in_range 123 126 c.
(** A backslash before every ASCII punctuation character *)
Definition backslash_escape (s : str) : str :=
  flat_map (fun c => if ascii_punct c then [92; c] else [c]) s.

(** ** One line: no line feed, no carriage return *)
Definition no_eol (l : str) : Prop := forall c, In c l -> c <> 10 /\ c <> 13.

(** ** Text in HTML (C17-C20, C22, C29, C40) *)
Definition html_char (c : N) : str :=
  if N.eqb c 38 then u "&amp;" else if N.eqb c 60 then u "&lt;" else if N.eqb c 62 then u "&gt;"
  else if N.eqb c 34 then u "&quot;" else [c].
Definition html_text (s : str) : str := flat_map html_char s.
Definition one_paragraph (content : str) : str := u "<p>" ++ content ++ u "</p>" ++ [10].

(** ** Characters without a Markdown meaning (C20) *)
(** They can be read as something else than themselves: the line ends, NUL, the backquote, the
    opening bracket, the backslash, the less-than sign, the ampersand, the asterisk and the
    underscore. *)
Definition ordinary_char (c : N) : Prop := ~ In c ([10; 13; 0] ++ u "`[\<&*_").
(** They can start a block: a quotation mark, a heading, a fence, a rule or a bullet. *)
Definition block_char (c : N) : Prop := In c (u "><#`~*_-+").

(** ** Letters and digits (C29): ASCII, Latin, Greek, Cyrillic, Hebrew, Devanagari, Thai, Hiragana,
    Katakana, Han and Hangul *)
Definition letter_ranges : list (N * N) :=
  [(48, 57); (65, 90); (97, 122); (192, 214); (216, 246); (248, 591); (913, 929); (931, 1011);
   (1024, 1153); (1488, 1514); (2309, 2361); (3585, 3632); (12353, 12438); (12449, 12538);
   (19968, 40959); (44032, 55203)].
Definition letter_or_digit (c : N) : Prop :=
  exists lo hi, In (lo, hi) letter_ranges /\ lo <= c <= hi.

(** ** The literal of a code span with text [t] (C22) *)
(** Line feeds become spaces; then one space is dropped from each end, if there is one at both ends
    and something else than spaces between them. *)
Definition code_span_text (t l : str) : Prop :=
  let c := map (fun x => if N.eqb x 10 then 32 else x) t in
  (forall m, c = 32 :: m ++ [32] -> (exists x, In x m /\ x <> 32) -> l = m) /\
  ((forall m, c = 32 :: m ++ [32] -> Forall (eq 32) m) -> l = c).
(** [t] has no backquote at its ends and no run of exactly [n] backquotes *)
Definition no_ticks_run (n : nat) (t : str) : Prop :=
  (exists c d r, t = c :: r /\ last r c = d /\ c <> 96 /\ d <> 96) /\
  (forall a b, t = a ++ repeat 96 n ++ b -> last a 0 = 96 \/ hd 0 b = 96).

(** ** Percent-encoding and UTF-8 (C23) *)
Definition ascii_alnum (c : N) : bool := in_range 48 57 c || in_range 65 90 c || in_range 97 122 c.
Definition uri_char (c : N) : bool := ascii_alnum c || mem_str c (u "_.-~;/@:+?=&()%#*,").
Definition surrogate (c : N) : Prop := 55296 <= c <= 57343.
Definition code_point (c : N) : Prop := c <= 1114111.

Definition hex_val (c : N) : option N :=
  if in_range 48 57 c then Some (c - 48) else if in_range 65 70 c then Some (c - 55) else None.
(** %XX to the byte with that number, upper-case digits *)
Fixpoint percent_decode (s : str) : option (list N) :=
  match s with
  | [] => Some []
  | 37 :: h :: l :: r =>
      match hex_val h, hex_val l, percent_decode r with
      | Some a, Some b, Some t => Some (16 * a + b :: t)
      | _, _, _ => None
      end
  | c :: r => match percent_decode r with Some t => Some (c :: t) | None => None end
  end.
(** UTF-8 as in RFC 3629 (continuation bytes are not range-checked: the theorem is about
    well-formed input) *)
Fixpoint utf8_decode (s : list N) : option str :=
  match s with
  | [] => Some []
  | a :: r =>
      if a <? 128 then match utf8_decode r with Some t => Some (a :: t) | None => None end
      else if a <? 224 then
        match r with
        | b :: r' => match utf8_decode r' with
                     | Some t => Some ((a - 192) * 64 + (b - 128) :: t) | None => None end
        | _ => None
        end
      else if a <? 240 then
        match r with
        | b :: c :: r' => match utf8_decode r' with
                     | Some t => Some ((a - 224) * 4096 + (b - 128) * 64 + (c - 128) :: t) | None => None end
        | _ => None
        end
      else
        match r with
        | b :: c :: d :: r' => match utf8_decode r' with
                     | Some t => Some ((a - 240) * 262144 + (b - 128) * 4096 + (c - 128) * 64 + (d - 128) :: t)
                     | None => None end
        | _ => None
        end
  end.

(** ** Numeric character references (C21) *)
(** The numbers 128 to 159 stand for the Windows-1252 characters *)
Definition windows_1252 : list N :=
  [8364; 129; 8218; 402; 8222; 8230; 8224; 8225; 710; 8240; 352; 8249; 338; 141; 381; 143;
   144; 8216; 8217; 8220; 8221; 8226; 8211; 8212; 732; 8482; 353; 8250; 339; 157; 382; 376].
(** Control codes and Unicode noncharacters are dropped *)
Definition dropped_number (n : N) : bool :=
  in_range 1 8 n || (n =? 11) || in_range 14 31 n || (n =? 127) ||
  in_range 64976 65007 n || (65534 <=? n mod 65536).
Definition number_text (n : N) : str :=
  if (n =? 0) || (1114111 <? n) || in_range 55296 57343 n then [65533]
  else if in_range 128 159 n then [nth (N.to_nat (n - 128)) windows_1252 0]
  else if dropped_number n then []
  else [n].
(** The number written by a list of digits, most significant first *)
Definition dec_digit (c : N) : option N := if in_range 48 57 c then Some (c - 48) else None.
Definition hex_digit_val (c : N) : option N :=
  if in_range 48 57 c then Some (c - 48)
  else if in_range 97 102 c then Some (c - 87)
  else if in_range 65 70 c then Some (c - 55) else None.
Fixpoint number_of (digit : N -> option N) (base acc : N) (s : str) : option N :=
  match s with
  | [] => Some acc
  | c :: r => match digit c with Some d => number_of digit base (acc * base + d) r | None => None end
  end.

(** ** Reference labels (C24) *)
(** Spacing inside a label; outside of it any white space counts *)
Definition label_blank (c : N) : bool := (c =? 32) || (c =? 9) || (c =? 13) || (c =? 10).
(** Two labels are the same up to ASCII letter case and spacing *)
Inductive same_label : str -> str -> Prop :=
| sl_refl a : same_label a a
| sl_sym a b : same_label a b -> same_label b a
| sl_trans a b c : same_label a b -> same_label b c -> same_label a c
| sl_case a c b : 65 <= c <= 90 -> same_label (a ++ [c] ++ b) (a ++ [c + 32] ++ b)
| sl_inner a w w' b : w <> [] -> w' <> [] -> forallb label_blank w = true -> forallb label_blank w' = true ->
    same_label (a ++ w ++ b) (a ++ w' ++ b)
| sl_outer a w w' : forallb is_space w = true -> forallb is_space w' = true ->
    same_label (w ++ a ++ w') a.
(** The key of a label: what the parser looks up for the text [label] in square brackets is
    [normalize_reference("[label]")]. *)
Definition in_brackets (label : str) : str := 91 :: label ++ [93].

(** ** Lines (C15, C16, C35)
    A line ends at a line feed, a carriage return, or a carriage return and line feed. *)
Fixpoint split_eol (s : str) : list str :=
  match s with
  | [] => [[]]
  | c :: r =>
      if N.eqb c 10 then [] :: split_eol r
      else if N.eqb c 13 then
        match r with
        | d :: r' => if N.eqb d 10 then [] :: split_eol r' else [] :: split_eol r
        | [] => [] :: split_eol r
        end
      else match split_eol r with l :: ls => (c :: l) :: ls | [] => [[c]] end
  end.
(** The lines of a text: a final line feed does not start another line *)
Definition text_lines (s : str) : list str :=
  match last_opt s with
  | Some c => if N.eqb c 10 then removelast (split_eol s) else split_eol s
  | None => split_eol s
  end.

(** ** Hyphens with the smart option (C30) *)
(** each run of n >= 2 hyphens becomes em dashes (for three hyphens each) and then en dashes (for two
    each); everything else is kept *)
Inductive dashed : str -> str -> Prop :=
| dashed_end : dashed [] []
| dashed_char c s t : c <> 45 -> dashed s t -> dashed (c :: s) (c :: t)
| dashed_one s t : hd_error s <> Some 45 -> dashed s t -> dashed (45 :: s) (45 :: t)
| dashed_run n em en s t : (2 <= n)%nat -> (3 * em + 2 * en = n)%nat -> hd_error s <> Some 45 -> dashed s t ->
    dashed (repeat 45 n ++ s) (repeat 8212 em ++ repeat 8211 en ++ t).
(** texts without quotes, "--" and "..." *)
Definition no_smart_marks (s : str) : Prop :=
  ~ In 39 s /\ ~ In 34 s /\ (forall a b, s <> a ++ [45; 45] ++ b) /\ (forall a b, s <> a ++ [46; 46; 46] ++ b).

(** ** Titles of link definitions (C43) *)
(** nothing but spaces up to the end of the line *)
Definition blank_to_eol (s : str) : Prop := exists k q, s = repeat 32%N k ++ q /\ (q = [] \/ hd_error q = Some 10%N).
