(** * Property theorem: exactly these lines end a paragraph *)
From Verif Require Import Base Regex Common Node Html Main Spec SpecTree SpecSame SpecLines SpecParas SpecBreak SpecLazy SpecWeak SpecJoin ItemHtml JoinBlank BreakForm BreakExact BreakAny.

(** ** C64 *)

(** A text ends inside a paragraph of the document, and a line is added. The paragraph ends before the
    new line exactly if the line is in the list of lines that interrupt. The line is not blank, is
    indented by at most three spaces and is no setext underline. *)
Theorem C64_interrupt_iff :
  forall smart ls i x d k pd pk d' k',
    Forall (Forall code_point) ls -> Forall no_eol ls -> Forall code_point x -> no_eol x -> ~ In 9%N x ->
    (forall c, In c x -> ~ In c [0; 304; 305; 383; 8490]%N) ->
    i <= 3 -> x <> [] -> hd_error x <> Some 32%N -> ~ underline x ->
    without (u "]:") (lines_text (ls ++ [repeat 32%N i ++ x])) ->
    parse_doc smart (lines_text ls) = Ok (T d (k ++ [T pd pk])) -> n_t pd = paragraph -> last_line pd = length ls ->
    parse_doc smart (lines_text (ls ++ [repeat 32%N i ++ x])) = Ok (T d' k') ->
    (break_start x <->
     exists pd', nth_error (map t_data k') (length k) = Some pd' /\ n_t pd' = paragraph /\ last_line pd' = length ls).
Proof. exact break_exact. Qed.
Print Assumptions C64_interrupt_iff.

(** The same for any indentation, and for underlines too (they make the paragraph a heading, see C65):
    the paragraph ends before the new line exactly if the line is indented by at most three spaces and is
    in the list. *)
Theorem C64_any_line :
  forall smart ls i x d k pd pk d' k',
    Forall (Forall code_point) ls -> Forall no_eol ls -> Forall code_point x -> no_eol x -> ~ In 9%N x ->
    (forall c, In c x -> ~ In c [0; 304; 305; 383; 8490]%N) ->
    x <> [] -> hd_error x <> Some 32%N ->
    without (u "]:") (lines_text (ls ++ [repeat 32%N i ++ x])) ->
    parse_doc smart (lines_text ls) = Ok (T d (k ++ [T pd pk])) -> n_t pd = paragraph -> last_line pd = length ls ->
    parse_doc smart (lines_text (ls ++ [repeat 32%N i ++ x])) = Ok (T d' k') ->
    (i <= 3 /\ break_start x <->
     exists pd', nth_error (map t_data k') (length k) = Some pd' /\ n_t pd' = paragraph /\ last_line pd' = length ls).
Proof. exact break_any. Qed.
Print Assumptions C64_any_line.

(** An underline, and a heading indented by five spaces *)
Example C64_any_case :
  Forall (fun ix : nat * str => let (i, x) := ix in
    Forall code_point x /\ no_eol x /\ ~ In 9%N x /\ (forall c, In c x -> ~ In c [0; 304; 305; 383; 8490]%N) /\ x <> [] /\ hd_error x <> Some 32%N /\
    without (u "]:") (lines_text ([u "# t"; u "a"] ++ [repeat 32%N i ++ x])) /\
    (exists d k pd pk d' k', parse_doc false (lines_text [u "# t"; u "a"]) = Ok (T d (k ++ [T pd pk])) /\ n_t pd = paragraph /\ last_line pd = 2 /\ pk <> [] /\
       parse_doc false (lines_text ([u "# t"; u "a"] ++ [repeat 32%N i ++ x])) = Ok (T d' k'))) [(1, u "---"); (5, u "# b")].
Proof.
  assert (J : forall x, forallb (fun c => N.leb c 1114111 && negb (existsb (N.eqb c) [0; 9; 10; 13; 304; 305; 383; 8490]%N)) x = true -> Forall code_point x /\ no_eol x /\ ~ In 9%N x /\ (forall c, In c x -> ~ In c [0; 304; 305; 383; 8490]%N)).
  { intros x H. rewrite forallb_forall in H. assert (K : forall c, In c x -> (c <= 1114111)%N /\ ~ In c [0; 9; 10; 13; 304; 305; 383; 8490]%N).
    { intros c Hc. apply H in Hc. apply andb_prop in Hc as [H1 H2]. split; [apply N.leb_le, H1|]. intros X. apply Bool.negb_true_iff, Bool.not_true_iff_false in H2. apply H2, existsb_exists. exists c. split; [exact X|apply N.eqb_refl]. }
    split; [apply Forall_forall; intros c Hc; apply K, Hc|]. split; [intros c Hc; destruct (K c Hc) as [_ N]; split; intros ->; apply N; cbn; tauto|]. split; [intros Hc; destruct (K _ Hc) as [_ N]; apply N; cbn; tauto|]. intros c Hc X. destruct (K c Hc) as [_ N]. apply N. cbn in *. tauto. }
  assert (P : exists d k pd pk, parse_doc false (lines_text [u "# t"; u "a"]) = Ok (T d (k ++ [T pd pk])) /\ n_t pd = paragraph /\ last_line pd = 2 /\ pk <> []).
  { destruct (parse_doc false (lines_text [u "# t"; u "a"])) as [[d [|t1 [|[pd pk] [|]]]]|] eqn:E; try (vm_compute in E; discriminate). exists d, [t1], pd, pk. split; [reflexivity|]. vm_compute in E. injection E as _ _ <- <-. split; [reflexivity|]. split; [reflexivity|discriminate]. }
  destruct P as (d & k & pd & pk & P1 & P2 & P3 & P4).
  repeat (constructor; [match goal with |- Forall code_point ?x /\ _ => destruct (J x ltac:(vm_compute; reflexivity)) as (J1 & J2 & J3 & J4) end;
    split; [exact J1|]; split; [exact J2|]; split; [exact J3|]; split; [exact J4|]; clear -P1 P2 P3 P4; split; [discriminate 1|]; split; [discriminate 1|]; split; [apply infixb_not; vm_compute; reflexivity|];
    exists d, k, pd, pk; match goal with |- exists d' k', _ /\ _ /\ _ /\ _ /\ parse_doc false ?s = _ => destruct (parse_doc false s) as [[d' k']|] eqn:E; [|vm_compute in E; discriminate E] end; exists d', k'; auto 6|]).
  constructor.
Qed.

(** Two lines that meet the conditions, one in the list and one not *)
Example C64_case :
  Forall (fun x => Forall code_point x /\ no_eol x /\ ~ In 9%N x /\ (forall c, In c x -> ~ In c [0; 304; 305; 383; 8490]%N) /\ x <> [] /\ hd_error x <> Some 32%N /\ ~ underline x /\
    without (u "]:") (lines_text ([u "# t"; u "a"] ++ [repeat 32%N 2 ++ x])) /\
    (exists d k pd pk d' k', parse_doc false (lines_text [u "# t"; u "a"]) = Ok (T d (k ++ [T pd pk])) /\ n_t pd = paragraph /\ last_line pd = 2 /\
       parse_doc false (lines_text ([u "# t"; u "a"] ++ [repeat 32%N 2 ++ x])) = Ok (T d' k'))) [u "1. b"; u "2. b"] /\
  break_start (u "1. b") /\ ~ break_start (u "2. b").
Proof.
  split; [|split].
  - assert (J : forall x, forallb (fun c => N.leb c 1114111 && negb (existsb (N.eqb c) [0; 9; 10; 13; 304; 305; 383; 8490]%N)) x = true -> Forall code_point x /\ no_eol x /\ ~ In 9%N x /\ (forall c, In c x -> ~ In c [0; 304; 305; 383; 8490]%N)).
    { intros x H. rewrite forallb_forall in H. assert (K : forall c, In c x -> (c <= 1114111)%N /\ ~ In c [0; 9; 10; 13; 304; 305; 383; 8490]%N).
      { intros c Hc. apply H in Hc. apply andb_prop in Hc as [H1 H2]. split; [apply N.leb_le, H1|]. intros X. apply Bool.negb_true_iff, Bool.not_true_iff_false in H2. apply H2, existsb_exists. exists c. split; [exact X|apply N.eqb_refl]. }
      split; [apply Forall_forall; intros c Hc; apply K, Hc|]. split; [intros c Hc; destruct (K c Hc) as [_ N]; split; intros ->; apply N; cbn; tauto|]. split; [intros Hc; destruct (K _ Hc) as [_ N]; apply N; cbn; tauto|]. intros c Hc X. destruct (K c Hc) as [_ N]. apply N. cbn in *. tauto. }
    assert (P : exists d k pd pk, parse_doc false (lines_text [u "# t"; u "a"]) = Ok (T d (k ++ [T pd pk])) /\ n_t pd = paragraph /\ last_line pd = 2).
    { destruct (parse_doc false (lines_text [u "# t"; u "a"])) as [[d [|t1 [|[pd pk] [|]]]]|] eqn:E; try (vm_compute in E; discriminate). exists d, [t1], pd, pk. split; [reflexivity|]. vm_compute in E. injection E as _ _ <- _. split; reflexivity. }
    destruct P as (d & k & pd & pk & P1 & P2 & P3).
    repeat (constructor; [match goal with |- Forall code_point ?x /\ _ => destruct (J x ltac:(vm_compute; reflexivity)) as (J1 & J2 & J3 & J4) end;
      split; [exact J1|]; split; [exact J2|]; split; [exact J3|]; split; [exact J4|]; clear -P1 P2 P3; split; [discriminate 1|]; split; [discriminate 1|]; split; [intros [(n & w & E & _)|(n & w & E & _)]; discriminate E|]; split; [apply infixb_not; vm_compute; reflexivity|];
      exists d, k, pd, pk; match goal with |- exists d' k', _ /\ _ /\ _ /\ parse_doc false ?s = _ => destruct (parse_doc false s) as [[d' k']|] eqn:E; [|vm_compute in E; discriminate E] end; exists d', k'; auto|]).
    constructor.
  - apply (break_number 46 32 (u "b")); [auto|auto|]. exists 98%N. split; [left; reflexivity|vm_compute; intuition discriminate].
  - apply quiet_break. vm_compute. reflexivity.
Qed.
