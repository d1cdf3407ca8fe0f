(** * Marked phrases inside marked phrases (C54) *)
From Verif Require Import Base Spec SpecTree SpecSame SpecLines SpecParas SpecPieces.

(** What follows some words on a line: nothing, or a piece, or a phrase between two runs of [n] marks [c].
    The phrase is the words [v] and what follows them; behind the piece or the phrase come more words and the rest. *)
Inductive phrase :=
| End
| Then (p : piece) (w : str) (rest : phrase)
| Marked (c : N) (n : nat) (v : str) (inner : phrase) (w : str) (rest : phrase).
Fixpoint phrase_text (l : phrase) : str :=
  match l with
  | End => []
  | Then p w rest => piece_text p ++ w ++ phrase_text rest
  | Marked c n v inner w rest => repeat c n ++ (v ++ phrase_text inner) ++ repeat c n ++ w ++ phrase_text rest
  end.
Definition mark_tag (n : nat) (s : str) : str :=
  if Nat.eqb n 1 then u "<em>" ++ s ++ u "</em>" else u "<strong>" ++ s ++ u "</strong>".
Fixpoint phrase_html (l : phrase) : str :=
  match l with
  | End => []
  | Then p w rest => piece_html p ++ html_text w ++ phrase_html rest
  | Marked c n v inner w rest => mark_tag n (html_text v ++ phrase_html inner) ++ html_text w ++ phrase_html rest
  end.

(** Words are ordinary text; a link does not follow an exclamation mark *)
Definition words_before (w : str) (l : phrase) : Prop :=
  Forall ordinary_char w /\ (hd_error (phrase_text l) = Some 91%N -> last_opt w <> Some 33%N).
(** [x] is the character before the text and [y] the one behind it; [around] are the marks and lengths of the runs
    around it.
    The first run of a phrase may open and the second may close, and no run touches another run of its mark.
    A first run that may also close must not close a phrase around it: it does not stand inside a phrase with
    the same mark, or, if not [strict], it has not the length of that mark (by the rule of multiples of three). *)
Section Phrases.
  Variables blank punct : N -> bool.
  Variable strict : bool.
  Fixpoint phrase_ok (around : list (N * nat)) (x : N) (l : phrase) (y : N) : Prop :=
    match l with
    | End => True
    | Then p w rest =>
        piece_ok p /\ words_before w rest /\
        match p with Code _ _ _ => hd y (w ++ phrase_text rest) <> 96%N | _ => True end /\
        phrase_ok around (last (piece_text p ++ w) x) rest y
    | Marked c n v inner w rest =>
        let t := v ++ phrase_text inner in
        let z := hd y (w ++ phrase_text rest) in
        (c = 42%N \/ c = 95%N) /\ (n = 1 \/ n = 2) /\ words_before v inner /\ words_before w rest /\
        t <> [] /\ hd c t <> c /\ z <> c /\
        may_open blank punct c x (hd c t) /\ may_close blank punct c (last t c) z /\
        (may_close blank punct c x (hd c t) -> forall m, In (c, m) around -> strict = false /\ m <> n) /\
        phrase_ok ((c, n) :: around) (last v c) inner c /\ phrase_ok around (last w c) rest y
    end.
  (** A line: words and what follows them.  It begins with words, or with a phrase that begins with words. *)
  Definition nest_ok (w : str) (l : phrase) : Prop :=
    words_before w l /\ phrase_ok [] (last w 10%N) l 10%N /\
    match w with
    | [] => match l with Marked _ _ v _ _ _ => v <> [] | _ => False end
    | c :: _ => is_space c = false /\ ~ block_char c /\ ~ list_number w
    end /\
    (forall c, last_opt (w ++ phrase_text l) = Some c -> is_space c = false).
End Phrases.
