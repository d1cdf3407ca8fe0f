(** * Lines: what C17, C18, C37-C40 and C49 say about them *)
From Verif Require Import Base Spec.

(** ** Columns (C39): a tab reaches the next multiple of four *)
Fixpoint width_from (col : nat) (s : str) : nat :=
  match s with
  | [] => col
  | c :: s' => width_from (if N.eqb c 9 then 4 * (col / 4 + 1) else col + 1) s'
  end.
Definition width (s : str) : nat := width_from 0 s.
(** Standing behind [offset] characters of a line, at the column that they fill, or, if [partial],
    inside the tab that comes next *)
Definition at_column (line : str) (offset column : nat) (partial : bool) : Prop :=
  offset <= length line /\
  if partial then nth_error line offset = Some TAB /\ width (firstn offset line) < column < width (firstn (S offset) line)
  else column = width (firstn offset line).

(** ** Thematic breaks (C37) *)
Definition count_char (c : N) (l : str) : nat := length (filter (N.eqb c) l).
Definition rule_line (l : str) : Prop :=
  exists c, In c (u "*_-") /\ hd_error l = Some c /\ 3 <= count_char c l /\
    Forall (fun x => x = c \/ x = 32%N \/ x = 9%N) l.

(** ** ATX headings (C38) *)
Definition blanks (w : str) : Prop := Forall (fun x => x = 32%N \/ x = 9%N) w.
(** number signs, with blanks in front and behind *)
Definition closing_sequence (s : str) : Prop :=
  exists w n w', s = w ++ repeat 35%N (S n) ++ w' /\ blanks w /\ blanks w'.
(** [b] is what is left of [s], the text behind the opening number signs and the blanks, without
    the closing number signs.  A closing sequence stands alone or behind a blank. *)
Definition heading_text (s b : str) : Prop :=
  (closing_sequence s /\ b = []) \/
  (~ closing_sequence s /\ exists w e, s = b ++ w :: e /\ (w = 32%N \/ w = 9%N) /\ closing_sequence e /\
     (forall x, last_opt b = Some x -> x <> 32%N /\ x <> 9%N)) \/
  (~ closing_sequence s /\ b = s /\ ~ exists a w e, s = a ++ w :: e /\ (w = 32%N \/ w = 9%N) /\ closing_sequence e).

(** ** Fences (C17) *)
Definition fence_char (c : N) : Prop := c = 96%N \/ c = 126%N.
(** A line that closes a fence of [n] times [c] *)
Definition closes_fence (c : N) (n : nat) (l : str) : Prop :=
  exists i k m, i <= 3 /\ n <= k /\ l = repeat 32%N i ++ repeat c k ++ repeat 32%N m.
(** What ends the block: nothing (the end of the document does) or a closing line *)
Definition fence_end (c : N) (n : nat) (close : list str) : Prop := close = [] \/ exists l, close = [l] /\ closes_fence c n l.
(** A line, indented or not, that opens a fence of [n] times [c]; [info] is the rest of the line *)
Definition opens_fence (l : str) (c : N) (n : nat) (info : str) : Prop :=
  l = repeat c n ++ info /\ fence_char c /\ 3 <= n /\ hd_error info <> Some c /\ (c = 96%N -> ~ In 96%N info).
(** A line without its first [n] columns of blanks, [n <= 3].  The rest of a tab becomes spaces. *)
Fixpoint unindent_from (n i : nat) (l : str) : str :=
  match i, l with
  | S i', c :: l' => if N.eqb c 32 then unindent_from n i' l' else if N.eqb c 9 then repeat 32%N (4 - n) ++ l' else l
  | _, _ => l
  end.
Definition unindent (n : nat) (l : str) : str := unindent_from n n l.

(** ** Indented code (C18): the blanks that fill four columns *)
Definition indent4 (w : str) : Prop := w = repeat 32%N 4 \/ exists k, k <= 3 /\ w = repeat 32%N k ++ [9%N].
(** A line [l] of an indented code block gives the line [c] of code; a blank line may be shorter *)
Definition code_line (l c : str) : Prop :=
  (exists w, indent4 w /\ l = w ++ c) \/ (c = [] /\ blanks l /\ width l < 4).

(** ** Flanking (C49): [x] is the character before the run, [y] the one behind it *)
Section Flanking.
  Variables blank punct : N -> bool.
  Definition left_flanking (x y : N) : Prop :=
    blank y = false /\ (punct y = false \/ blank x = true \/ punct x = true).
  Definition right_flanking (x y : N) : Prop :=
    blank x = false /\ (punct x = false \/ blank y = true \/ punct y = true).
  Definition may_open (c x y : N) : Prop :=
    left_flanking x y /\ (c = 95%N -> ~ right_flanking x y \/ punct x = true).
  Definition may_close (c x y : N) : Prop :=
    right_flanking x y /\ (c = 95%N -> ~ left_flanking x y \/ punct y = true).
End Flanking.

(** ** Opening lines of headings (C38): [n] number signs, blanks, and the text [s] *)
Definition atx_line (l : str) (n : nat) (s : str) : Prop :=
  1 <= n <= 6 /\ exists w, l = repeat 35%N n ++ w ++ s /\ blanks w /\ (w = [] -> s = []) /\
    (forall x, hd_error s = Some x -> x <> 32%N /\ x <> 9%N).

(** A word or a phrase between two equal runs of marks (C49) *)
Definition in_marks (n : nat) (w : str) : str :=
  if Nat.eqb n 1 then u "<em>" ++ html_text w ++ u "</em>" else u "<strong>" ++ html_text w ++ u "</strong>".

(** ** HTML blocks (C40): the block-level tags *)
Definition ascii_lower (c : N) : N := if N.leb 65 c && N.leb c 90 then (c + 32)%N else c.
Definition block_names : list str :=
  [u "address"; u "article"; u "aside"; u "base"; u "basefont"; u "blockquote"; u "body"; u "caption"; u "center"; u "col";
   u "colgroup"; u "dd"; u "details"; u "dialog"; u "dir"; u "div"; u "dl"; u "dt"; u "fieldset"; u "figcaption"; u "figure";
   u "footer"; u "form"; u "frame"; u "frameset"; u "h1"; u "head"; u "header"; u "hr"; u "html"; u "iframe"; u "legend"; u "li";
   u "link"; u "main"; u "menu"; u "menuitem"; u "nav"; u "noframes"; u "ol"; u "optgroup"; u "option"; u "p"; u "param";
   u "section"; u "source"; u "summary"; u "table"; u "tbody"; u "td"; u "tfoot"; u "th"; u "thead"; u "title"; u "tr"; u "track"; u "ul"].
(** What follows the name: a space, the end of the tag or the end of the line *)
Definition after_name (rest : str) : Prop :=
  rest = [] \/ exists c r, rest = c :: r /\ (is_space c = true \/ c = 62%N \/ (c = 47%N /\ hd_error r = Some 62%N)).
(** A line, indented or not, that begins with such a tag, opening or closing *)
Definition opens_html (l : str) : Prop :=
  exists slash name rest, l = 60%N :: slash ++ name ++ rest /\ (slash = [] \/ slash = [47%N]) /\
    In (map ascii_lower name) block_names /\ after_name rest.
