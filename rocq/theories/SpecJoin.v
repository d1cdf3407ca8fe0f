(** * Texts one after the other: what the specification of C56 needs *)
From Verif Require Import Base Regex Node Spec SpecTree SpecLines SpecBreak.

(** [w] does not occur in [s]. A text without "]:" has no reference definitions. *)
Definition without (w s : str) : Prop := forall p q, s <> p ++ w ++ q.

(** The line begins with something other than a space or a tab. *)
Definition flush_left (l : str) : Prop :=
  match l with
  | c :: _ => c <> SP /\ c <> TAB
  | [] => False
  end.

(** The line does not begin with a digit, and not with a bullet followed by a space, a tab or the
    end of the line: no list item begins here. *)
Definition no_item (l : str) : Prop :=
  match l with
  | c :: r => is_decimal c = false /\ (In c (u "*+-") -> flush_left r)
  | [] => True
  end.

(** The last block of the first text, whose blocks are [k], ends there: it was finished before
    the last line of that text, or it is a heading or a thematic break, or it is indented code
    and the second text is not indented, or it is a paragraph or a quote and the second text begins
    with an empty line, or it is a paragraph and the first line of the second text interrupts it
    (C63), or it is a list, a blank line follows it and the second text is neither
    indented nor begins with a list item. *)
Definition separated (k : list tree) (a b : str) : Prop :=
  match last_opt k with
  | None => True
  | Some t =>
      last_line (t_data t) < length (text_lines a) \/
      match t_type t with
      | heading | thematic_break => True
      | code_block => n_is_fenced (t_data t) = false /\ flush_left (hd [] (text_lines b))
      | paragraph => hd [] (text_lines b) = [] \/ interrupts (hd [] (text_lines b))
      | block_quote => hd [] (text_lines b) = []
      | list_ => last_opt (text_lines a) = Some [] /\ flush_left (hd [] (text_lines b)) /\ no_item (hd [] (text_lines b))
      | _ => False
      end
  end.

(** The same blocks, but for the note about a blank line behind the last one *)
Definition same_but_last_note (k k' : list tree) : Prop :=
  k' = k \/
  exists l d ks v, k = l ++ [T d ks] /\ k' = l ++ [T (set_n_last_line_blank v d) ks].
