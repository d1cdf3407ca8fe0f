(** * Specification: two documents that differ in positions (C41, C45) *)
From Verif Require Import Base Regex Node Html Main Spec SpecTree.

(** [P] relates the positions ((line, column), (last line, last column)) of corresponding blocks;
    everything else is equal.  Paragraphs and headings have equal children. *)
Inductive same_blocks (P : nat * nat * (nat * nat) -> nat * nat * (nat * nat) -> Prop) : tree -> tree -> Prop :=
| sb_text d k sp sp' : n_t d = paragraph \/ n_t d = heading -> n_sourcepos d = Some sp -> P sp sp' ->
    same_blocks P (T d k) (T (set_n_sourcepos (Some sp') d) k)
| sb_block d k k' sp sp' : n_sourcepos d = Some sp -> P sp sp' -> Forall2 (same_blocks P) k k' ->
    same_blocks P (T d k) (T (set_n_sourcepos (Some sp') d) k').

(** all line numbers [n] larger, first columns equal *)
Definition lines_down (n : nat) (sp sp' : nat * nat * (nat * nat)) : Prop :=
  let '(l, c, (el, _)) := sp in
  let '(l', c', (el', _)) := sp' in
  l' = l + n /\ c' = c /\ el' = el + n.
(** the same lines, all columns [n] larger; a last column of 0 (a block closed before any line
    was finished) stays 0 *)
Definition columns_right (n : nat) (sp sp' : nat * nat * (nat * nat)) : Prop :=
  let '(l, c, (el, ec)) := sp in
  let '(l', c', (el', ec')) := sp' in
  l' = l /\ c' = c + n /\ el' = el /\ (ec' = ec + n \/ ec = 0 /\ ec' = 0).

(** A blank line: spaces and tabs *)
Definition blank_line (l : str) : Prop := forall c, In c l -> c = 32%N \/ c = 9%N.

(** The text with "> " before each of its lines *)
Definition quote_text (s : str) : str := flat_map (fun l => u "> " ++ l ++ [10%N]) (text_lines s).

(** A text whose line breaks (line feeds) are written as [br] (C15) *)
Definition with_breaks (br s : str) : str := flat_map (fun c => if N.eqb c 10 then br else [c]) s.

(** ** Lines that start a numbered list (C20) *)
(** digits, a full stop or parenthesis, and then a blank or the end: a list number *)
Definition list_number (l : str) : Prop := exists ds x r, l = ds ++ x :: r /\ ds <> [] /\ Forall (fun c => is_decimal c = true) ds /\ (x = 46%N \/ x = 41%N) /\ (r = [] \/ hd_error r = Some 32%N \/ hd_error r = Some 9%N).
