(** * Which lines end a paragraph, for any indentation and with underlines (C64) *)
From Verif Require Import Base Regex Common NormRef Node Inlines Blocks Html Main RegexFacts RegexLang StrFacts StrProp Spec SpecTree SpecSame SpecLines SpecParas SpecBreak SpecLazy SpecWeak SpecJoin
  InlineFacts BlockFacts LineFacts ParseFacts DocFacts TextFacts RuleFacts FenceFacts ParaFacts WeakFacts WeakSim BreakLine BreakForm BreakExact BreakUnder.
Import SpecParas.
From Coq Require Import ZifyBool ZifyNat ZifyN.

Lemma under_dec l : ~ In 10%N l -> underline l \/ ~ underline l.
Proof.
  intros Hl. destruct (re_search reSetextHeadingLine l) as [m|] eqn:Em.
  - left. assert (E : re_test reSetextHeadingLine l = true) by (unfold re_test; rewrite Em; reflexivity). rewrite reSetext_shape, test_line in E by reflexivity. unfold setext_body in E. cbn [RegexLang.L] in E.
    destruct E as (g & q & E & (g1 & g2 & -> & Ha & (w & g3 & -> & Hw & -> & Hq))). apply (no_lf_end l q _ Hl E) in Hq as ->. rewrite !app_nil_r in E. apply (L_blanks true 0) in Hw as [_ Hw].
    destruct Ha as [Ha|Ha]; apply (L_run true 1) in Ha as [H1 H2]; [left|right]; exists (length g1 - 1), w; (replace (S (length g1 - 1)) with (length g1) by lia); rewrite <- H2; split; assumption.
  - right. intros [H|H]; [destruct (setext_some l 61 (or_introl eq_refl) H) as (m & E & _)|destruct (setext_some l 45 (or_intror eq_refl) H) as (m & E & _)]; congruence.
Qed.
Lemma break_under l : ~ In 10%N l -> break_start l -> ~ underline l.
Proof.
  intros Hl Hb. destruct (break_strong l Hb Hl) as (c & r & E & _ & (_ & S & _)).
  intros [H|H]; [destruct (setext_some l 61 (or_introl eq_refl) H) as (m & E' & _)|destruct (setext_some l 45 (or_intror eq_refl) H) as (m & E' & _)]; congruence.
Qed.

Theorem break_any smart ls i x d k pd pk d' k' :
  Forall (Forall code_point) ls -> Forall no_eol ls -> Forall code_point x -> no_eol x -> ~ In 9%N x -> (forall c, In c x -> ~ In c [0; 304; 305; 383; 8490]%N) ->
  x <> [] -> hd_error x <> Some 32%N -> without (u "]:") (lines_text (ls ++ [repeat 32%N i ++ x])) ->
  parse_doc smart (lines_text ls) = Ok (T d (k ++ [T pd pk])) -> n_t pd = paragraph -> last_line pd = length ls ->
  parse_doc smart (lines_text (ls ++ [repeat 32%N i ++ x])) = Ok (T d' k') ->
  (i <= 3 /\ break_start x <-> exists pd', nth_error (map t_data k') (length k) = Some pd' /\ n_t pd' = paragraph /\ last_line pd' = length ls).
Proof.
  intros Hc He Hcx Hx Ht Ho Hne Hsp Hw E1 Hp Hl E2.
  assert (H10 : ~ In 10%N x) by (intros X; destruct (Hx _ X) as [Y _]; apply Y; reflexivity).
  destruct (le_lt_dec i 3) as [Hi|Hi]; [destruct (under_dec x H10) as [Hu|Hu]|].
  - split; [intros [_ Hb]; destruct (break_under x H10 Hb Hu)|]. intros (pd' & G1 & G2 & _). exfalso.
    assert (G : exists c, (c = 61%N \/ c = 45%N) /\ underline_of c x) by (destruct Hu as [Hu|Hu]; eexists; (split; [|exact Hu]); auto). destruct G as (c & Hcc & Hu').
    destruct (under_turns smart ls i c x d k pd pk Hc He Hi Hcc Hu' E1 Hp Hl) as (d2 & hd & a & e & E3 & Hh & _). rewrite E2 in E3. injection E3 as -> ->.
    rewrite map_app, nth_error_app2 in G1 by (rewrite map_length; lia). rewrite map_length, Nat.sub_diag in G1. cbn in G1. congruence.
  - rewrite <- (break_exact smart ls i x d k pd pk d' k') by assumption. tauto.
  - split; [intros [X _]; lia|]. intros (pd' & G1 & _ & G2). exfalso.
    destruct (weak_blocks smart ls x i d k pd pk (T d' k') Hc He Hx Ht (or_intror (conj Hi (conj Hne Hsp))) E1 Hp Hl E2) as (d2 & k2 & X & [Y|(pd2 & Y & _ & Y2)]); injection X as <- <-; rewrite Y in G1.
    + assert (nth_error (map t_data k) (length k) = None) by (apply nth_error_None; rewrite map_length; lia). congruence.
    + rewrite nth_error_app2 in G1 by (rewrite map_length; lia). rewrite map_length, Nat.sub_diag in G1. injection G1 as <-. lia.
Qed.
