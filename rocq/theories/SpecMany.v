(** * Lists of several items with texts under each item: what the specification of C59 needs *)
From Verif Require Import Base Common Node Spec SpecTree SpecSame SpecLines SpecParas SpecLists SpecItems SpecJoin.

(** An entry of the list: the item with its first line of words and the blank lines behind it, the
    text under it as it is written at the left margin, and the same text indented under the item *)
Record entry := Entry { en_item : li; en_text : str; en_under : str }.
Definition entry_ok (x : entry) : Prop :=
  li_ok (en_item x) /\ li_blanks (en_item x) <> [] /\ Forall code_point (li_words (en_item x)) /\
  Forall code_point (en_text x) /\ plain_spaces (en_text x) /\ without [93; 58]%N (en_text x) /\
  indented_text (li_width (en_item x)) (en_text x) (en_under x) /\ last_opt (en_under x) = Some 10%N.
(** What is written: the entries one after the other *)
Definition entry_source (x : entry) : str := li_text (en_item x) ++ en_under x.
(** The HTML of an entry whose text has the HTML [h] *)
Definition entry_html (x : entry) (h : str) : str :=
  u "<li>" ++ [10%N] ++ u "<p>" ++ html_text (li_words (en_item x)) ++ u "</p>" ++ [10%N] ++ h ++ u "</li>" ++ [10%N].
Fixpoint entries_html (l : list entry) (hs : list str) : str :=
  match l, hs with
  | x :: l, h :: hs => entry_html x h ++ entries_html l hs
  | _, _ => []
  end.
