(** * Property theorem about marked phrases *)
From Verif Require Import Base Common Node Html Main Spec SpecTree SpecSame SpecLines SpecRefs SpecParas SpecPieces SpecNest FlankFacts NestFacts.
From Coq Require Import ZifyBool ZifyNat ZifyN.

(** ** C54 *)

(** Phrases in emphasis or strong emphasis, inside each other to any depth and with the pieces of C53
    between the words, become nested elements. *)
Theorem C54_nested :
  forall o w l, ho_sourcepos o = false -> ho_safe o = false -> nest_ok is_space punctuation true w l ->
    md_to_html false o (w ++ phrase_text l) = Ok (u "<p>" ++ html_text w ++ phrase_html l ++ u "</p>" ++ [10%N]).
Proof. intros o w l Ho Hs H. exact (nest_md o Ho Hs w l H). Qed.
Print Assumptions C54_nested.

Ltac flank := vm_compute; solve [intuition (congruence || discriminate)].
Ltac one_char := first
  [ assumption | reflexivity | discriminate
  | unfold word_char; lia
  | left; one_char
  | right; one_char
  | let X := fresh in intros X; vm_compute in X; solve [intuition discriminate]
  | vm_compute; solve [auto 30]
  | split; one_char ].
Ltac all_chars := repeat (apply Forall_cons; [one_char|]); apply Forall_nil.
Ltac words := split; [all_chars|discriminate].

(** It does not hold of a phrase that begins inside a word inside a phrase with a longer or shorter run of the same mark *)
Theorem C54_nested_refuted :
  exists w l, nest_ok is_space punctuation false w l /\
    md_to_html false default_opts (w ++ phrase_text l) <> Ok (u "<p>" ++ html_text w ++ phrase_html l ++ u "</p>" ++ [10%N]).
Proof.
  exists [], (Marked 95 1 (u "a ") (Marked 42 2 (u "b") (Marked 42 1 (u "c") End (u "d") End) [] End) [] End). split; [|vm_compute; discriminate].
  split; [words|]. split; [|split; [discriminate|intros c X; injection X as <-; reflexivity]].
  repeat match goal with |- _ /\ _ => split end.
  all: try (cbn [phrase_ok]).
  all: try exact I; try words; try discriminate; try (left; reflexivity); try (right; reflexivity); try flank.
  all: cbn [phrase_ok]; repeat match goal with |- _ /\ _ => split end.
  all: try exact I; try words; try discriminate; try (left; reflexivity); try (right; reflexivity); try flank.
  all: cbn [phrase_ok]; repeat match goal with |- _ /\ _ => split end.
  all: try exact I; try words; try discriminate; try (left; reflexivity); try (right; reflexivity); try flank.
Qed.
Print Assumptions C54_nested_refuted.
Example C54_refuted_case :
  md_to_html false default_opts (u "**b*c*d**") = Ok (u "<p><strong>b<em>c</em>d</strong></p>" ++ [10%N]) /\
  md_to_html false default_opts (u "_a **b*c*d**_") = Ok (u "<p><em>a **b<em>c</em>d**</em></p>" ++ [10%N]).
Proof. split; vm_compute; reflexivity. Qed.

Definition C54_phrase : phrase :=
  Marked 42 1 (u "very ") (Marked 42 2 (u "bold ") (Then (Code 1 (u "*") (u "*")) (u " ") (Marked 95 1 (u "x") End [] End)) (u " and") End) (u " un")
  (Marked 42 1 (u "frigging") End (u "believable ")
  (Marked 95 2 [] (Then (Link false (u "y") 0 (Bare (u "/z")) None 0) [] End) [] End)).
Lemma C54_code : piece_ok (Code 1 (u "*") (u "*")).
Proof.
  split; [repeat constructor|]. split; [|split; [|split; [|split]]].
  - split; [exists 42%N, 42%N; eexists; split; [reflexivity|]; split; [reflexivity|split; discriminate]|]. intros a b E.
    repeat (destruct a as [|? a]; [discriminate E|injection E as <- E]). destruct a; discriminate E.
  - intros c H. vm_compute in H. intuition (subst; discriminate).
  - intros H. vm_compute in H. intuition discriminate.
  - intros m E. discriminate E.
  - reflexivity.
Qed.
Lemma C54_link : piece_ok (Link false (u "y") 0 (Bare (u "/z")) None 0).
Proof. split; [all_chars|]. split; [|exact I]. split; [all_chars|]. split; [discriminate|reflexivity]. Qed.
Example C54_case :
  nest_ok is_space punctuation true (u "so ") C54_phrase /\
  u "so " ++ phrase_text C54_phrase = u "so *very **bold `*` _x_** and* un*frigging*believable __[y](/z)__" /\
  md_to_html false default_opts (u "so " ++ phrase_text C54_phrase) =
    Ok (u "<p>so <em>very <strong>bold <code>*</code> <em>x</em></strong> and</em> un<em>frigging</em>believable <strong><a href=""/z"">y</a></strong></p>" ++ [10%N]).
Proof.
  split; [|split; vm_compute; reflexivity].
  split; [words|]. split; [|split; [split; [reflexivity|split; [intros H; vm_compute in H; intuition discriminate|]]|intros c X; vm_compute in X; injection X as <-; reflexivity]].
  - unfold C54_phrase. do 4 (cbn [phrase_ok]; repeat match goal with |- _ /\ _ => split end;
      try exact I; try exact C54_code; try exact C54_link; try words; try discriminate; try (left; reflexivity); try (right; reflexivity); try flank).
  - intros (ds & x & r & E & H1 & H2 & _). destruct ds as [|d ds]; [congruence|]. injection E as <- E. apply Forall_inv in H2. discriminate H2.
Qed.
