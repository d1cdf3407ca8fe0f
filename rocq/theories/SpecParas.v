(** * Paragraphs of several lines: line breaks (C50) and setext headings (C51) *)
From Verif Require Import Base Common Node Spec SpecTree SpecSame SpecLines.

(** What stands behind the words of a line: some spaces, or a backslash *)
Inductive ending := Spaces (k : nat) | Backslash.
Record para_line := PL { pl_indent : nat; pl_words : str; pl_ending : ending }.
Definition ending_text (e : ending) : str := match e with Spaces k => repeat 32%N k | Backslash => [92%N] end.
Definition para_line_text (l : para_line) : str := repeat 32%N (pl_indent l) ++ pl_words l ++ ending_text (pl_ending l).

(** A line of equals signs or of hyphens *)
Definition underline_of (c : N) (l : str) : Prop := exists n w, l = repeat c (S n) ++ w /\ blanks w.
Definition underline (l : str) : Prop := underline_of 61 l \/ underline_of 45 l.
(** A list number that may interrupt a paragraph: [1], a full stop or parenthesis, a blank *)
Definition first_number (l : str) : Prop :=
  exists x b r, l = 49%N :: x :: b :: r /\ (x = 46%N \/ x = 41%N) /\ (b = 32%N \/ b = 9%N).

(** Words without markup that begin and end with a visible character *)
Definition words_ok (w : str) : Prop :=
  w <> [] /\ Forall ordinary_char w /\ (forall c, hd_error w = Some c \/ last_opt w = Some c -> is_space c = false).
(** The first line starts no block *)
Definition first_line_ok (l : para_line) : Prop :=
  words_ok (pl_words l) /\ pl_indent l <= 3 /\ (forall c, hd_error (pl_words l) = Some c -> ~ block_char c) /\ ~ list_number (pl_words l).
(** The lines that follow may be indented as much as they like; if they are not, they interrupt
    no paragraph *)
Definition next_line_ok (l : para_line) : Prop :=
  words_ok (pl_words l) /\
  (4 <= pl_indent l \/
   ((forall c, hd_error (pl_words l) = Some c -> ~ block_char c) /\ ~ first_number (pl_words l) /\
    ~ underline (pl_words l ++ ending_text (pl_ending l)))).
Definition para_ok (l : list para_line) : Prop :=
  match l with [] => False | a :: l' => first_line_ok a /\ Forall next_line_ok l' end.

(** Two spaces or a backslash make a hard line break *)
Definition hard (e : ending) : bool := match e with Spaces k => Nat.leb 2 k | Backslash => true end.
(** The HTML of the lines.  At the end of the last one, spaces go and a backslash is a backslash. *)
Fixpoint lines_html (soft : str) (l : list para_line) : str :=
  match l with
  | [] => []
  | a :: l' =>
      html_text (pl_words a) ++
      match l' with
      | [] => match pl_ending a with Backslash => [92%N] | _ => [] end
      | _ => (if hard (pl_ending a) then u "<br />" ++ [10%N] else soft) ++ lines_html soft l'
      end
  end.
Definition para_text (l : list para_line) : str := flat_map (fun a => para_line_text a ++ [10%N]) l.
