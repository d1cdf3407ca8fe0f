(** * A paragraph, and a line that interrupts it *)
From Verif Require Import Base Regex Common Node Html Main Spec SpecTree SpecSame SpecLines SpecParas SpecBreak SpecJoin JoinDoc JoinBlank LineFacts.
From Coq Require Import Lia.

Lemma break_separated k pd pk a b : n_t pd = paragraph -> interrupts (hd [] (text_lines b)) -> separated (k ++ [T pd pk]) a b.
Proof. intros Hp Hb. unfold separated. rewrite last_opt_app by discriminate. cbn [last_opt]. right. unfold t_type. cbn [t_data]. rewrite Hp. right. exact Hb. Qed.
Theorem break_html smart o a b d k pd pk A : ho_sourcepos o = false -> Forall code_point a -> Forall code_point b -> last_opt a = Some LF -> without (u "]:") (a ++ b) ->
  parse_doc smart a = Ok (T d (k ++ [T pd pk])) -> n_t pd = paragraph -> interrupts (hd [] (text_lines b)) ->
  md_to_html smart o a = Ok A -> md_to_html smart o (a ++ b) = let* B := md_to_html smart o b in Ok (A ++ B).
Proof. intros Ho Ha Hb Hl Hw E Hp Hi. apply (joined_html smart o a b d (k ++ [T pd pk]) A Ho Ha Hb Hl Hw E). apply break_separated; assumption. Qed.
Theorem break_tree smart a b d k pd pk : Forall code_point a -> Forall code_point b -> last_opt a = Some LF -> without (u "]:") (a ++ b) ->
  parse_doc smart a = Ok (T d (k ++ [T pd pk])) -> n_t pd = paragraph -> interrupts (hd [] (text_lines b)) ->
  match parse_doc smart b with
  | Ok (T db kb) => exists d' k1 k2, parse_doc smart (a ++ b) = Ok (T d' (k1 ++ k2)) /\ same_but_last_note (k ++ [T pd pk]) k1 /\ Forall2 (same_blocks (lines_down (length (text_lines a)))) kb k2
  | Err e => parse_doc smart (a ++ b) = Err e
  end.
Proof. intros Ha Hb Hl Hw E Hp Hi. apply (joined_doc smart a b d (k ++ [T pd pk]) Ha Hb Hl Hw E). apply break_separated; assumption. Qed.
