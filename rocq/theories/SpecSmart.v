(** * Smart punctuation on a line of words (C58) *)
From Verif Require Import Base.

(** ** Quotation marks *)
Section Quotes.
  Variables blank punct : N -> bool.    (** the characters that count as blanks and as punctuation *)
  (** A mark between the characters [x] and [y].  It closes if something stands before it: not a blank, and
      punctuation only if a blank or punctuation follows.  It opens if something stands behind it in
      the same sense, and it does not close. *)
  Definition closes (x y : N) : bool := negb (blank x) && (negb (punct x) || blank y || punct y).
  Definition opens (x y : N) : bool := negb (blank y) && (negb (punct y) || blank x || punct x) && negb (closes x y).
  (** Of the single marks of [s] that open or close, the first one closes; [x] is the character before [s] *)
  Fixpoint next_closes (x : N) (s : str) : bool :=
    match s with
    | [] => false
    | c :: r =>
        if N.eqb c 39 then
          if closes x (hd 10%N r) then true else if opens x (hd 10%N r) then false else next_closes c r
        else next_closes c r
    end.
  (** A double mark is a right one if it closes, otherwise a left one.  A single mark is a left one if it
      opens and there is one to close it before the next one that opens; otherwise it is a right one, an apostrophe. *)
  Fixpoint curl (x : N) (s : str) : str :=
    match s with
    | [] => []
    | c :: r =>
        (if N.eqb c 34 then if closes x (hd 10%N r) then 8221%N else 8220%N
         else if N.eqb c 39 then if opens x (hd 10%N r) && next_closes c r then 8216%N else 8217%N
         else c) :: curl c r
    end.
End Quotes.

(** ** Full stops and hyphens *)
(** Three full stops become an ellipsis, from left to right *)
Fixpoint ellipses (s : str) : str :=
  match s with
  | c :: r =>
      match r with
      | c2 :: c3 :: r' => if N.eqb c 46 && N.eqb c2 46 && N.eqb c3 46 then 8230%N :: ellipses r' else c :: ellipses r
      | _ => c :: ellipses r
      end
  | [] => []
  end.
(** A run of [n] hyphens: one is kept; else em dashes if three divides [n], en dashes if two does; else as many
    em dashes as leave two or four hyphens, and one or two en dashes for these *)
Definition dash_run (n : nat) : str :=
  if Nat.leb n 1 then repeat 45%N n
  else if Nat.eqb (n mod 3) 0 then repeat 8212%N (n / 3)
  else if Nat.eqb (n mod 2) 0 then repeat 8211%N (n / 2)
  else if Nat.eqb (n mod 3) 2 then repeat 8212%N (n / 3) ++ [8211%N]
  else repeat 8212%N (n / 3 - 1) ++ [8211%N; 8211%N].
(** [n] hyphens and the text [s] *)
Fixpoint dashes (n : nat) (s : str) : str :=
  match s with
  | [] => dash_run n
  | c :: r => if N.eqb c 45 then dashes (S n) r else dash_run n ++ c :: dashes 0 r
  end.

Definition smart_line (blank punct : N -> bool) (s : str) : str := dashes 0 (ellipses (curl blank punct 10%N s)).
