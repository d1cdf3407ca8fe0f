(** * Property theorem about a line of words and inline markup *)
From Verif Require Import Base Common Node Entities Html Main Spec SpecTree SpecSame SpecRefs SpecParas SpecPieces StrFacts PieceFacts.
From Coq Require Import ZifyBool ZifyNat ZifyN.

(** ** C53 *)

(** A line of words in which code spans, escaped characters, character references, links, images, addresses
    and tags stand is one paragraph, and the markup is rendered piece by piece, each piece alone and in order. *)
Theorem C53_pieces :
  forall o w l, ho_sourcepos o = false -> ho_safe o = false -> line_ok w l ->
    md_to_html false o (w ++ pieces_text l) = Ok (u "<p>" ++ line_html w l ++ u "</p>" ++ [10%N]).
Proof. exact pieces_md. Qed.
Print Assumptions C53_pieces.

Definition C53_line : list (piece * str) :=
  [(Code 2 (u " a ` <b> ") (u "a ` <b>"), u " or ");
   (Escaped 42%N, []);
   (Decimal (u "0065") 65%N, u " > ");
   (Hexadecimal 120%N (u "3c") 60%N, []);
   (Named (u "amp") (u "&"), u ": ");
   (Link false (u "a link") 1 (Bare (u "/x(y)?z=1")) (Some (TI 2 40%N (u "the {title}") 41%N)) 1, u "! ");
   (Link true (u "image") 0 (Angled []) None 0, []);
   (Address (u "https") (u "//example.org/a#b"), u ", ");
   (Mail (u "some.one+tag") [u "mail"; u "example"; u "org"], u " ");
   (Opening (u "i") [AT 1 (u "class") (Some (0, 0, Unquoted (u "c1"))); AT 2 (u "id") (Some (1, 1, Quoted 34%N (u "a > 'b'"))); AT 1 (u "data-x") None] 1 false, u "in");
   (Closing (u "i") 0, []);
   (Opening (u "br") [] 0 true, u "end")].
(** Every condition of the theorem holds of this line *)
Ltac one_char := first
  [ assumption | reflexivity | discriminate
  | unfold word_char; lia
  | unfold ascii_letter; lia
  | left; one_char
  | right; one_char
  | let X := fresh in intros X; vm_compute in X; solve [intuition discriminate]
  | vm_compute; solve [auto 30]
  | split; one_char ].
Ltac all_chars := repeat (apply Forall_cons; [one_char|]); apply Forall_nil.
Ltac ends := let c := fresh in let H := fresh in intros c H; injection H as <-; split; [reflexivity|intros H; vm_compute in H; intuition discriminate].
Lemma C53_code : piece_ok (Code 2 (u " a ` <b> ") (u "a ` <b>")).
Proof.
  split; [repeat constructor|]. split; [|split; [|split; [|split]]].
  - split; [exists 32%N, 32%N; eexists; split; [reflexivity|]; split; [reflexivity|split; discriminate]|]. intros a b E.
    repeat (destruct a as [|? a]; [discriminate E|injection E as <- E]). destruct a; discriminate E.
  - intros c H. vm_compute in H. intuition (subst; discriminate).
  - intros H. vm_compute in H. intuition discriminate.
  - intros m E _. change (32%N :: u "a ` <b>" ++ [32%N] = 32%N :: m ++ [32%N]) in E. injection E as E. change (u "a ` <b>" ++ [32%N] = m ++ [32%N]) in E. apply app_inj_tail in E as [E _]. exact E.
  - intros H. exfalso. specialize (H (u "a ` <b>") eq_refl). inversion H as [|? ? X _]. discriminate X.
Qed.
Lemma C53_named : piece_ok (Named (u "amp") (u "&")).
Proof.
  split; [|exists 97%N, (u "mp"); split; [reflexivity|]; split; [one_char|]; split; [cbn; lia|all_chars]].
  assert (H : existsb (fun x => str_eqb (fst x) (u "amp;") && str_eqb (snd x) (u "&")) html5_table = true) by (vm_compute; reflexivity).
  apply existsb_exists in H as ([k v] & H & E). apply andb_true_iff in E as [E1 E2]. cbn [fst snd] in E1, E2. apply str_eqb_eq in E1, E2. subst. exact H.
Qed.
Example C53_case :
  line_ok (u "1.5 of ") C53_line /\
  u "1.5 of " ++ pieces_text C53_line = u "1.5 of `` a ` <b> `` or \*&#0065; > &#x3c;&amp;: [a link]( /x(y)?z=1  (the {title}) )! ![image](<>)<https://example.org/a#b>, <some.one+tag@mail.example.org> <i class=c1  id = ""a > 'b'"" data-x >in</i><br/>end" /\
  md_to_html false default_opts (u "1.5 of " ++ pieces_text C53_line) =
    Ok (u "<p>1.5 of <code>a ` &lt;b&gt;</code> or *A &gt; &lt;&amp;: <a href=""/x(y)?z=1"" title=""the {title}"">a link</a>! <img src="""" alt=""image"" /><a href=""https://example.org/a#b"">https://example.org/a#b</a>, <a href=""mailto:some.one+tag@mail.example.org"">some.one+tag@mail.example.org</a> <i class=c1  id = ""a > 'b'"" data-x >in</i><br/>end</p>" ++ [10%N]).
Proof.
  split; [|split; vm_compute; reflexivity].
  split; [discriminate|]. split; [all_chars|]. split; [ends|]. split.
  { intros (ds & x & r & E & H1 & H2 & H3 & H4). destruct ds as [|d ds]; [congruence|]. injection E as <- E. destruct ds as [|d ds]; [injection E as <- E; subst r; destruct H4 as [H4|[H4|H4]]; discriminate|]. injection E as <- E. apply Forall_inv_tail, Forall_inv in H2. discriminate H2. }
  split; [discriminate|]. split; [|intros c H; injection H as <-; reflexivity].
  split; [exact C53_code|]. split; [all_chars|]. split; [discriminate|]. split; [discriminate|].
  split; [reflexivity|]. split; [all_chars|]. split; [exact I|]. split; [discriminate|].
  split; [split; [cbn; lia|reflexivity]|]. split; [all_chars|]. split; [exact I|]. split; [discriminate|].
  split; [split; [left; reflexivity|split; [cbn; lia|reflexivity]]|]. split; [all_chars|]. split; [exact I|]. split; [discriminate|].
  split; [exact C53_named|]. split; [all_chars|]. split; [exact I|]. split; [discriminate|].
  split; [split; [all_chars|split; [split; [all_chars|split; [discriminate|reflexivity]]|split; [cbn; lia|split; [cbn; auto|all_chars]]]]|]. split; [all_chars|]. split; [exact I|]. split; [discriminate|].
  split; [split; [all_chars|split; [split; [all_chars|exact I]|exact I]]|]. split; [all_chars|]. split; [exact I|]. split; [discriminate|].
  split; [split; [eexists; eexists; split; [reflexivity|]; split; [one_char|]; split; [cbn; lia|all_chars]|all_chars]|]. split; [all_chars|]. split; [exact I|]. split; [discriminate|].
  split; [split; [discriminate|split; [all_chars|split; [discriminate|]]]; repeat (constructor; [split; [discriminate|split; [cbn; lia|all_chars]]|]); constructor|]. split; [all_chars|]. split; [exact I|]. split; [discriminate|].
  split.
  { split; [eexists; eexists; split; [reflexivity|]; split; [one_char|all_chars]|].
    repeat apply Forall_cons; [| | |apply Forall_nil]; (split; [cbn; lia|]); (split; [eexists; eexists; split; [reflexivity|]; split; [one_char|all_chars]|]).
    - split; [discriminate|all_chars].
    - split; [left; reflexivity|]. split; [intros H; vm_compute in H; intuition discriminate|]. split; [intros c H; vm_compute in H; intuition (subst; discriminate)|intros H; vm_compute in H; intuition discriminate].
    - exact I. }
  split; [all_chars|]. split; [exact I|]. split; [discriminate|].
  split; [eexists; eexists; split; [reflexivity|]; split; [one_char|all_chars]|]. split; [all_chars|]. split; [exact I|]. split; [discriminate|].
  split; [split; [eexists; eexists; split; [reflexivity|]; split; [one_char|all_chars]|apply Forall_nil]|]. split; [all_chars|]. split; [exact I|]. split; [discriminate|].
  exact I.
Qed.
