(** * The command line tool and the library *)
From Verif Require Import Base Regex Common NormRef Node Inlines Blocks Html Rst Dump Main Cli
  Spec SpecSame SpecCli LineFacts GramFacts.

Lemma concat_file_lines s : concat (file_lines s) = s.
Proof.
  induction s as [|c r IH]; [reflexivity|]. cbn [file_lines]. destruct (N.eqb c LF) eqn:E.
  - cbn [concat]. rewrite IH. reflexivity.
  - destruct (file_lines r) as [|l ls]; cbn [concat] in *; rewrite <- IH; reflexivity.
Qed.

Lemma universal_facts : forall n s, length s <= n ->
  split_eol (universal s) = split_eol s /\
  (last_opt s <> Some 13%N -> last_opt (universal s) = last_opt s) /\ (s = [] <-> universal s = []).
Proof.
  induction n as [|n IH]; intros [|c r] Hn; try (split; [reflexivity|]; split; [reflexivity|]; tauto); [cbn [length] in Hn; lia|].
  cbn [length] in Hn. assert (Hr : length r <= n) by (clear -Hn; lia).
  assert (L : forall (x : N) r, last_opt (x :: r) = match r with [] => Some x | _ => last_opt r end) by (intros x [|]; reflexivity).
  cbn [universal]. destruct (N.eqb c 13) eqn:E.
  - apply N.eqb_eq in E. subst c. destruct r as [|d r'].
    + split; [reflexivity|]. split; [intros H; contradiction H; reflexivity|split; discriminate].
    + destruct (N.eqb d LF) eqn:E2.
      * apply N.eqb_eq in E2. subst d. cbn [length] in Hr. destruct (IH r' ltac:(clear -Hr; lia)) as (A & B & C).
        split; [|split].
        -- change (LF :: universal r') with (10%N :: universal r'). rewrite split_eol_lf, A. symmetry. apply split_eol_crlf.
        -- intros H. rewrite !L in H. rewrite !L. destruct r' as [|x r'']; [reflexivity|].
           rewrite <- (B H). destruct (universal (x :: r'')) eqn:U; [|reflexivity]. destruct C as [_ C]. specialize (C eq_refl). discriminate.
        -- split; discriminate.
      * destruct (IH (d :: r') Hr) as (A & B & C). split; [|split].
        -- change (LF :: universal (d :: r')) with (10%N :: universal (d :: r')). rewrite split_eol_lf, A. symmetry. apply split_eol_cr.
           cbn [hd_error]. intros H. injection H as ->. discriminate E2.
        -- intros H. change (last_opt (d :: r') <> Some 13%N) in H. change (last_opt (LF :: universal (d :: r')) = last_opt (d :: r')).
           rewrite <- (B H), L. destruct (universal (d :: r')) eqn:U; [destruct C as [_ C]; specialize (C eq_refl); discriminate|reflexivity].
        -- split; discriminate.
  - destruct (IH r Hr) as (A & B & C). split; [|split].
    + destruct (N.eqb c 10) eqn:E2.
      * apply N.eqb_eq in E2. subst c. rewrite !split_eol_lf, A. reflexivity.
      * cbn [split_eol]. rewrite E2, E, A. reflexivity.
    + intros H. rewrite L in H. rewrite !L. destruct r as [|x r'].
      * reflexivity.
      * rewrite <- (B H). destruct (universal (x :: r')) eqn:U; [destruct C as [_ C]; specialize (C eq_refl); discriminate|reflexivity].
    + split; discriminate.
Qed.

Lemma text_lines_universal s : last_opt s <> Some 13%N -> text_lines (universal s) = text_lines s.
Proof.
  intros H. destruct (universal_facts (length s) s (le_n _)) as (A & B & _). unfold text_lines. rewrite (B H), A. reflexivity.
Qed.

Lemma parse_data s : last_opt s <> Some 13%N -> parse_doc false (read_data s) = parse_doc false s.
Proof. intros H. unfold read_data. rewrite concat_file_lines. apply same_lines, text_lines_universal, H. Qed.

Lemma cmark_library args s : last_opt s <> Some 13%N -> a_o args <> NoName ->
  cmark_main args s = let* out := commonmark s (format_of args) in Ok (delivered (a_o args) out).
Proof.
  intros H Ho. unfold cmark_main, commonmark. rewrite (parse_data s H).
  destruct (parse_doc false s) as [t|e]; [|reflexivity]. cbn [bind].
  destruct args as [d a j]. cbn [a_o a_a a_aj] in *. unfold format_of. cbn [a_a a_aj].
  destruct a; [destruct d; [| |contradiction Ho; reflexivity]|destruct j].
  - change (dumpAST t) with (dumpAST t). cbn [andb negb]. 
    change (Ok (Effect (dumpAST t) (opened Stdout)) = Ok (Effect (dumpAST t ++ []) None)). rewrite app_nil_r. reflexivity.
  - reflexivity.
  - change ((let* r := dumpJSON t in o_write d r) = let* out := (let* r := dumpJSON t in Ok (Out (Some r) [])) in Ok (delivered d out)).
    destruct (dumpJSON t) as [r|e]; [|reflexivity]. destruct d; [reflexivity|reflexivity|contradiction Ho; reflexivity].
  - change ((let* r := render_html default_opts t in o_write d r) = let* out := (let* r := render_html default_opts t in Ok (Out (Some r) [])) in Ok (delivered d out)).
    destruct (render_html default_opts t) as [r|e]; [|reflexivity]. destruct d; [reflexivity|reflexivity|contradiction Ho; reflexivity].
Qed.

Lemma cmark_no_name args s out : last_opt s <> Some 13%N -> a_o args = NoName -> commonmark s (format_of args) = Ok out ->
  cmark_main args s = if a_a args then Ok (delivered Stdout out) else Err AttributeError.
Proof.
  intros H Ho E. unfold cmark_main, commonmark in *. rewrite (parse_data s H).
  destruct (parse_doc false s) as [t|e]; [|discriminate E]. cbn [bind] in *.
  destruct args as [d a j]. cbn [a_o a_a a_aj] in *. subst d. unfold format_of in E. cbn [a_a a_aj] in E.
  destruct a; [|destruct j].
  - change (Ok (Out None (dumpAST t)) = Ok out) in E. assert (X : Out None (dumpAST t) = out) by congruence. clear E. subst out.
    change (Ok (Effect (dumpAST t) None) = Ok (Effect (dumpAST t ++ []) None)). rewrite app_nil_r. reflexivity.
  - change ((let* r := dumpJSON t in Ok (Out (Some r) [])) = Ok out) in E. cbn [negb andb].
    destruct (dumpJSON t) as [r|e]; [reflexivity|discriminate E].
  - change ((let* r := render_html default_opts t in Ok (Out (Some r) [])) = Ok out) in E. cbn [negb andb].
    destruct (render_html default_opts t) as [r|e]; [reflexivity|discriminate E].
Qed.
