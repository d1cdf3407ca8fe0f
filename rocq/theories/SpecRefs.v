(** * Link reference definitions and references (C25, C26), links in links (C27) *)
From Verif Require Import Base Common Node Spec SpecTree SpecLines.
From Coq Require Import List.

(** Labels and link texts are ASCII words, destinations are made of letters, digits and a few marks *)
Definition word_char (c : N) : Prop := (48 <= c <= 57)%N \/ (65 <= c <= 90)%N \/ (97 <= c <= 122)%N.
Definition plain_word (w : str) : Prop := w <> [] /\ length w <= 999 /\ Forall word_char w.
Definition url_char (c : N) : Prop := word_char c \/ In c (u "/.-_?=#+").
Definition url (d : str) : Prop := d <> [] /\ Forall url_char d.

(** A line that defines a label, or a line with one reference.  The tail of a reference is nothing,
    [[]], or a label in brackets. *)
Inductive ref_line :=
| Defines (label dest : str)
| Refers (as_image : bool) (words : str) (tail : option str).
Definition ref_line_ok (i : ref_line) : Prop :=
  match i with
  | Defines label dest => plain_word label /\ url dest
  | Refers _ words None => plain_word words
  | Refers _ words (Some []) => plain_word words
  | Refers _ words (Some label) => plain_word words /\ plain_word label
  end.
Definition bracketed (w : str) : str := u "[" ++ w ++ u "]".
Definition ref_text (i : ref_line) : str :=
  match i with
  | Defines label dest => bracketed label ++ u ": " ++ dest
  | Refers im words tail =>
      (if im then u "!" else []) ++ bracketed words ++ match tail with None => [] | Some label => bracketed label end
  end.
(** one line each, with a blank line behind it *)
Definition ref_doc (l : list ref_line) : str := flat_map (fun i => ref_text i ++ [10; 10]%N) l.

(** The destination of a label: that of its first definition in the text, wherever that stands *)
Definition same_word (a b : str) : bool := if list_eq_dec N.eq_dec (map ascii_lower a) (map ascii_lower b) then true else false.
Fixpoint first_dest (l : list ref_line) (label : str) : option str :=
  match l with
  | [] => None
  | Defines x dest :: l' => if same_word x label then Some dest else first_dest l' label
  | _ :: l' => first_dest l' label
  end.
Definition label_of (words : str) (tail : option str) : str :=
  match tail with Some (c :: label) => c :: label | _ => words end.
Definition ref_html (dest : str -> option str) (i : ref_line) : str :=
  match i with
  | Defines _ _ => []
  | Refers im words tail =>
      u "<p>" ++
      match dest (label_of words tail) with
      | Some d => if im then u "<img src=""" ++ d ++ u """ alt=""" ++ words ++ u """ />"
                  else u "<a href=""" ++ d ++ u """>" ++ words ++ u "</a>"
      | None => ref_text i
      end ++ u "</p>" ++ [10%N]
  end.

(** ** Links in links (C27)
    [y] is a link whose only child is the text [w], where [<w>] stands in the text [s], and which leads to [w],
    read as an address or as an e-mail address. *)
Definition autolink_of (y : tree) (s : str) : Prop :=
  t_type y = link /\
  exists w dest a b, map (fun k => (t_type k, n_literal (t_data k), t_kids k)) (t_kids y) = [(text, Some w, [])] /\
    n_destination (t_data y) = Some dest /\ (normalize_uri w = Ok dest \/ normalize_uri (u "mailto:" ++ w) = Ok dest) /\
    s = a ++ [60%N] ++ w ++ [62%N] ++ b.
(** [y] lies below [x]: it is a child of [x], or a child of a child, and so on *)
Definition lies_below (x y : tree) : Prop := exists k, In k (t_kids x) /\ In y (subtrees k).
