(** * Base: strings, exceptions as values, Python string helpers

    Python 3 [str] values are modelled as lists of code points ([N]). *)
From Coq Require Export List NArith ZArith Arith Bool Lia.
From Coq.Strings Require Import Byte.
Export ListNotations.
#[global] Set Warnings "-notation-overridden".

Notation str := (list N).

(** ** String literals: [u "abc"] is the list of the code points of "abc" (ASCII only). *)
Inductive ulit := U (l : list N).
Definition ulit_of_bytes (l : list byte) : ulit := U (map Byte.to_N l).
Definition ulit_to_bytes (x : ulit) : option (list byte) :=
  let 'U l := x in
  fold_right (fun c acc => match Byte.of_N c, acc with
                           | Some b, Some a => Some (b :: a)
                           | _, _ => None
                           end) (Some []) l.
Declare Scope u_scope.
Delimit Scope u_scope with u.
String Notation ulit ulit_of_bytes ulit_to_bytes : u_scope.
Definition u (x : ulit) : str := let 'U l := x in l.
Arguments u x%u.

(** ** Exceptions as values.
    [OutOfFuel] is not a Python exception: it stands for a loop that did not end
    within the bound the model gives it.  [Impossible] is not one either: it marks
    a branch in which a pointer is not where the list representation of the
    linked nodes expects it.  The totality theorems exclude both. *)
Inductive exn :=
| IndexError | AttributeError | TypeError | ValueError | KeyError
| UnicodeEncodeError | OutOfFuel | Impossible.

Inductive res (A : Type) := Ok (a : A) | Err (e : exn).
Arguments Ok {A} a.
Arguments Err {A} e.

Definition bind {A B} (x : res A) (f : A -> res B) : res B :=
  match x with Ok a => f a | Err e => Err e end.
Notation "'let*' x := a 'in' b" := (bind a (fun x => b))
  (at level 200, x pattern, a at level 100, b at level 200, right associativity).

Definition of_option {A} (e : exn) (o : option A) : res A :=
  match o with Some a => Ok a | None => Err e end.

(** ** Equality and small list helpers *)
Fixpoint str_eqb (a b : str) : bool :=
  match a, b with
  | [], [] => true
  | x :: a', y :: b' => N.eqb x y && str_eqb a' b'
  | _, _ => false
  end.

Definition opt_eqb {A} (eq : A -> A -> bool) (a b : option A) : bool :=
  match a, b with
  | None, None => true
  | Some x, Some y => eq x y
  | _, _ => false
  end.

Definition is_nil {A} (l : list A) : bool := match l with [] => true | _ => false end.

Fixpoint last_opt {A} (l : list A) : option A :=
  match l with [] => None | [x] => Some x | _ :: l' => last_opt l' end.

Fixpoint take_while {A} (f : A -> bool) (l : list A) : list A :=
  match l with [] => [] | x :: l' => if f x then x :: take_while f l' else [] end.
Fixpoint drop_while {A} (f : A -> bool) (l : list A) : list A :=
  match l with [] => [] | x :: l' => if f x then drop_while f l' else l end.

(** [s.startswith(p)] *)
Fixpoint starts_with (p s : str) : bool :=
  match p, s with
  | [], _ => true
  | x :: p', y :: s' => N.eqb x y && starts_with p' s'
  | _, _ => false
  end.

Definition mem_str (c : N) (s : str) : bool := existsb (N.eqb c) s.

(** Truth value of a Python string or None: [if s:] *)
Definition truthy (o : option str) : bool :=
  match o with Some (_ :: _) => true | _ => false end.

(** [x or ''] for a string or None *)
Definition or_empty (o : option str) : str := match o with Some s => s | None => [] end.

(** Python [s[1:-1]] *)
Definition chop_ends (s : str) : str := removelast (tl s).

(** ** Characters *)
Definition LF : N := 10.
Definition SP : N := 32.
Definition TAB : N := 9.

Definition in_range (lo hi c : N) : bool := (N.leb lo c && N.leb c hi)%bool.

(** Characters for which Python 3 [str.isspace()] is true; this is also the class
    [\s] of [re] on str patterns and what [str.strip()] and [str.split()] use. *)
Definition is_space (c : N) : bool :=
  in_range 9 13 c || in_range 28 32 c || N.eqb c 133 || N.eqb c 160 ||
  N.eqb c 5760 || in_range 8192 8202 c || N.eqb c 8232 || N.eqb c 8233 ||
  N.eqb c 8239 || N.eqb c 8287 || N.eqb c 12288.

Definition strip_left (f : N -> bool) (s : str) : str := drop_while f s.
Definition strip_right (f : N -> bool) (s : str) : str := rev (drop_while f (rev s)).
(** [s.strip()] *)
Definition strip (s : str) : str := strip_right is_space (strip_left is_space s).

(** [s.replace(c, d)] for single characters *)
Definition replace_char (c d : N) (s : str) : str :=
  map (fun x => if N.eqb x c then d else x) s.

(** [s.split()]: maximal runs of non-space characters *)
Fixpoint split_ws_aux (cur : str) (s : str) : list str :=
  match s with
  | [] => if is_nil cur then [] else [rev cur]
  | c :: s' =>
      if is_space c
      then if is_nil cur then split_ws_aux [] s' else rev cur :: split_ws_aux [] s'
      else split_ws_aux (c :: cur) s'
  end.
Definition split_ws (s : str) : list str := split_ws_aux [] s.

(** ** Decimal printing [str(n)] *)
Fixpoint dec_digits (fuel : nat) (n : N) (acc : str) : str :=
  match fuel with
  | O => acc
  | S f =>
      let d := (48 + N.modulo n 10)%N in
      if N.ltb n 10 then d :: acc else dec_digits f (N.div n 10) (d :: acc)
  end.
Definition str_of_N (n : N) : str := dec_digits (S (N.size_nat n)) n [].
Definition str_of_nat (n : nat) : str := str_of_N (N.of_nat n).

(** Python's [peek(ln, pos)] : blocks.py 61-65; also [s[i]] with the IndexError as None *)
Definition peek_at (s : str) (pos : nat) : option N := nth_error s pos.
