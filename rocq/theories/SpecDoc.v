(** * Documents of blocks inside blocks (C57) *)
From Verif Require Import Base Common Node Spec SpecTree SpecSame SpecLines SpecParas SpecLists SpecPieces SpecNest SpecItems SpecJoin.

(** What a document is made of. Quotes and items hold blocks. *)
Inductive block :=
| Phrase (w : str) (l : phrase)                 (** a paragraph of one line: words, pieces and marked phrases *)
| Lines (l : list para_line)                    (** a paragraph of lines of words *)
| Heading (n : nat) (w : str) (l : phrase)      (** number signs and a line like that of [Phrase] *)
| Underlined (c : N) (n : nat) (l : list para_line)
| Rule (l : str)
| Indented (ls : list str)
| Fenced (c : N) (n : nat) (ls : list str)
| Html (ls : list str)
| Items (l : list li)                           (** lists of one-line items *)
| Quote (bs : list block)
| Item (i : li) (bs : list block)               (** an item of a line of words and more blocks *)
| Entries (l : list (li * list block)).         (** a list of several such items *)

(** Blocks have an empty line between them *)
Fixpoint apart (l : list (list str)) : list str :=
  match l with
  | [] => []
  | [x] => x
  | x :: l' => x ++ [] :: apart l'
  end.
(** Empty lines are not indented *)
Definition indent (n : nat) (l : str) : str := if is_nil l then [] else repeat 32%N n ++ l.
Fixpoint block_lines (b : block) : list str :=
  match b with
  | Phrase w l => [w ++ phrase_text l]
  | Lines l => map para_line_text l
  | Heading n w l => [repeat 35%N n ++ u " " ++ w ++ phrase_text l]
  | Underlined c n l => map para_line_text l ++ [repeat c n]
  | Rule l => [l]
  | Indented ls => map (indent 4) ls
  | Fenced c n ls => repeat c n :: ls ++ [repeat c n]
  | Html ls => ls
  | Items l => flat_map (fun i => li_line i :: li_blanks i) l
  | Quote bs => map (fun l => u "> " ++ l) (apart (map block_lines bs))
  | Item i bs => li_line i :: [] :: map (indent (li_width i)) (apart (map block_lines bs))
  | Entries l => apart (map (fun '(i, bs) => li_line i :: [] :: map (indent (li_width i)) (apart (map block_lines bs))) l)
  end.
Definition doc_text (bs : list block) : str := flat_map (fun l => l ++ [10%N]) (apart (map block_lines bs)).

Section Html.
  Variable soft : str.    (** the HTML of a line end in a paragraph *)
  Fixpoint block_html (b : block) : str :=
    match b with
    | Phrase w l => u "<p>" ++ (html_text w ++ phrase_html l) ++ u "</p>" ++ [10%N]
    | Lines l => u "<p>" ++ lines_html soft l ++ u "</p>" ++ [10%N]
    | Heading n w l => u "<h" ++ str_of_nat n ++ u ">" ++ (html_text w ++ phrase_html l) ++ u "</h" ++ str_of_nat n ++ u ">" ++ [10%N]
    | Underlined c n l => let h := if N.eqb c 61 then u "h1" else u "h2" in u "<" ++ h ++ u ">" ++ lines_html soft l ++ u "</" ++ h ++ u ">" ++ [10%N]
    | Rule l => u "<hr />" ++ [10%N]
    | Indented ls | Fenced _ _ ls => u "<pre><code>" ++ html_text (flat_map (fun l => l ++ [10%N]) ls) ++ u "</code></pre>" ++ [10%N]
    | Html ls => flat_map (fun l => l ++ [10%N]) ls
    | Items l => flat_map run_html (runs l)
    | Quote bs => u "<blockquote>" ++ [10%N] ++ flat_map block_html bs ++ u "</blockquote>" ++ [10%N]
    | Item i bs => item_html i (flat_map block_html bs)
    | Entries l =>
        match l with
        | [] => []
        | (i, _) :: _ =>
            open_tag (li_mark i) ++ [10%N] ++
            flat_map (fun '(j, bs) => u "<li>" ++ [10%N] ++ u "<p>" ++ html_text (li_words j) ++ u "</p>" ++ [10%N] ++ flat_map block_html bs ++ u "</li>" ++ [10%N]) l ++
            close_tag (li_mark i) ++ [10%N]
        end
    end.
  Definition doc_html (bs : list block) : str := flat_map block_html bs.
End Html.

(** No tabs, no spaces in otherwise empty lines, and nothing that looks like a reference definition *)
Definition clean_line (l : str) : Prop :=
  Forall code_point l /\ ~ In 0%N l /\ no_eol l /\ ~ In 9%N l /\ ((forall c, In c l -> c = 32%N) -> l = []) /\ without (u "]:") l.
(** What may follow a block: a list goes on with a further item or with blocks that are indented, and indented code with
    indented lines. [l] is the first line of the next block. *)
Definition followed (b : block) (l : str) : Prop :=
  match b with
  | Items _ | Item _ _ | Entries _ => flush_left l /\ no_item l
  | Indented _ => flush_left l
  | _ => True
  end.
Fixpoint in_order (bs : list block) : Prop :=
  match bs with
  | b :: (b' :: _) as r => followed b (hd [] (block_lines b')) /\ in_order r
  | _ => True
  end.
Section Ok.
Variables blank punct : N -> bool.    (** the characters that count as blanks and as punctuation around a mark *)
Definition leaf_ok (b : block) : Prop :=
  match b with
  | Phrase w l => nest_ok blank punct true w l
  | Lines l => para_ok l
  | Heading n w l =>
      1 <= n <= 6 /\ words_before w l /\ phrase_ok blank punct true [] (last w 10%N) l 10%N /\
      (forall c, hd_error (w ++ phrase_text l) = Some c \/ last_opt (w ++ phrase_text l) = Some c -> is_space c = false /\ c <> 35%N) /\
      w ++ phrase_text l <> []
  | Underlined c n l => (c = 61%N \/ c = 45%N) /\ 1 <= n /\ para_ok l
  | Rule l => rule_line l
  | Indented ls => hd [] ls <> [] /\ last ls [] <> []
  | Fenced c n ls => fence_char c /\ 3 <= n /\ Forall (fun l => ~ closes_fence c n l) ls
  | Html ls => opens_html (hd [] ls) /\ ~ In [] ls
  | Items l => l <> [] /\ Forall li_ok l /\ (forall i, last_opt l = Some i -> li_blanks i = [])
  | Quote _ => True
  | Item i _ => li_ok i /\ li_blanks i = [[]]
  | Entries l =>
      2 <= length l /\ Forall (fun x => li_ok (fst x) /\ li_blanks (fst x) = [[]]) l /\
      (forall x y, In x l -> In y l -> same_kind (li_mark (fst x)) (li_mark (fst y)) = true)
  end.
Definition leaf_lines (b : block) : list str :=
  match b with
  | Quote _ => []
  | Item i _ => [li_line i]
  | Entries l => map (fun x => li_line (fst x)) l
  | Indented ls => ls
  | _ => block_lines b
  end.
Fixpoint block_ok (b : block) : Prop :=
  leaf_ok b /\ Forall clean_line (leaf_lines b) /\
  match b with
  | Quote bs | Item _ bs => bs <> [] /\ (fix all l := match l with [] => True | x :: r => block_ok x /\ all r end) bs /\ in_order bs
  | Entries l =>
      (fix entries l :=
         match l with
         | [] => True
         | (_, bs) :: r => (bs <> [] /\ (fix all l := match l with [] => True | x :: r => block_ok x /\ all r end) bs /\ in_order bs) /\ entries r
         end) l
  | _ => True
  end.
Definition doc_ok (bs : list block) : Prop := bs <> [] /\ Forall block_ok bs /\ in_order bs.
End Ok.
