(** * Property theorems about smart punctuation on a line of words *)
From Verif Require Import Base Common Node Html Main Spec SpecTree SpecSame SpecLines SpecSmart FlankFacts QuoteFacts.
From Coq Require Import ZifyBool ZifyNat ZifyN.

(** ** C58 *)

(** With smart punctuation on, a line of words is one paragraph of the text that [smart_line] writes. *)
Theorem C58_smart_line :
  forall o s, ho_sourcepos o = false -> s <> [] -> Forall ordinary_char s ->
    (forall c, hd_error s = Some c -> is_space c = false /\ ~ block_char c) ->
    (forall c, last_opt s = Some c -> is_space c = false) -> ~ list_number s ->
    (exists t, parse_doc true s = Ok t /\ paragraph_of_text t (smart_line is_space punctuation s)) /\
    md_to_html true o s = Ok (one_paragraph (html_text (smart_line is_space punctuation s))).
Proof. intros o s Ho H1 H2 H3 H4 H5. exact (smart_words o s Ho H1 H2 H3 H4 H5). Qed.
Print Assumptions C58_smart_line.

Definition C58_text : str := u """so"" they said -- 'tis ""it's 'all' done""... a----b".
Definition C58_written : str :=
  [8220%N] ++ u "so" ++ [8221%N] ++ u " they said " ++ [8211%N] ++ u " " ++ [8216%N] ++ u "tis " ++ [8220%N] ++ u "it" ++ [8217%N] ++ u "s " ++
  [8216%N] ++ u "all" ++ [8217%N] ++ u " done" ++ [8221%N; 8230%N] ++ u " a" ++ [8211%N; 8211%N] ++ u "b".
Example C58_case : smart_line is_space punctuation C58_text = C58_written /\ md_to_html true default_opts C58_text = Ok (u "<p>" ++ C58_written ++ u "</p>" ++ [10%N]).
Proof.
  assert (E : smart_line is_space punctuation C58_text = C58_written) by (vm_compute; reflexivity). split; [exact E|].
  destruct (C58_smart_line default_opts C58_text) as (_ & H).
  - reflexivity.
  - discriminate.
  - repeat (constructor; [let X := fresh in intros X; vm_compute in X; solve [intuition discriminate]|]). constructor.
  - intros c X. vm_compute in X. injection X as <-. split; [reflexivity|]. let Y := fresh in intros Y; vm_compute in Y; solve [intuition discriminate].
  - intros c X. vm_compute in X. injection X as <-. reflexivity.
  - intros (ds & c & q & E0 & Hne & Hd & _). destruct ds as [|d ds]; [congruence|]. injection E0 as <- _. apply Forall_cons_iff in Hd as [Hd _]. vm_compute in Hd. discriminate.
  - rewrite H, E. vm_compute. reflexivity.
Qed.

(** Not every single mark that is closed becomes a left one: a mark is forgotten as soon as another one opens. *)
Theorem C58_nested_refuted :
  exists s, s = u "'a 'b' c'" /\ md_to_html true default_opts s = Ok (u "<p>" ++ [8217%N] ++ u "a " ++ [8216%N] ++ u "b" ++ [8217%N] ++ u " c" ++ [8217%N] ++ u "</p>" ++ [10%N]).
Proof. eexists. split; [reflexivity|]. vm_compute. reflexivity. Qed.
Print Assumptions C58_nested_refuted.
