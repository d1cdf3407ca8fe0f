(** * Blank lines behind blocks *)
From Verif Require Import Base Regex Entities Common NormRef Node Inlines Blocks RegexFacts StrFacts Spec SpecTree SpecSame SpecLines
  TreeFacts BlockFacts BlockInv LineFacts Sim SimFacts DocFacts AfterFacts.
From Coq Require Import ZifyBool ZifyNat ZifyN.

Record at_blank (z : parser) : Prop := AtBlank { ab_blank : p_blank z = true; ab_rest : rest_nonspace z = []; ab_peek : peek (p_line z) (p_next_nonspace z) = None }.
Lemma blank_fnn x : blank_line (p_line x) -> p_offset x = 0 -> keeps x (find_next_nonspace x) /\ at_blank (find_next_nonspace x).
Proof.
  intros Hb Eo. split; [apply keeps_fnn|]. destruct (blank_skip (rest_offset x) (p_offset x) (p_column x)) as (c & Ec). { unfold rest_offset. rewrite Eo. exact Hb. }
  assert (E : peek (p_line x) (p_offset x + length (rest_offset x)) = None) by (unfold peek; apply nth_error_None; unfold rest_offset; rewrite Eo; cbn; lia).
  unfold find_next_nonspace. rewrite Ec. constructor; unfold rest_nonspace; cbn [p_blank p_line p_next_nonspace set_p_indented set_p_indent set_p_next_nonspace_column set_p_next_nonspace set_p_blank]; rewrite ?E; auto.
  apply skipn_all2. unfold rest_offset. rewrite Eo. cbn. lia.
Qed.
(** no block starts with a blank line *)
Lemma blank_tries z t : at_blank z -> p_stack z <> [] -> try_starts block_starts t z = Ok (SNone, z).
Proof.
  intros [B1 B2 B3] Hs. unfold block_starts. cbn [try_starts].
  assert (E1 : start_block_quote z = Ok (SNone, z)) by (unfold start_block_quote; rewrite B3, andb_false_r; reflexivity). rewrite E1. cbn [bind].
  assert (E2 : start_atx_heading z = Ok (SNone, z)) by (unfold start_atx_heading; rewrite B2; destruct (p_indented z); [reflexivity|]; replace (re_search reATXHeadingMarker []) with (@None rmatch) by (vm_compute; reflexivity); reflexivity). rewrite E2. cbn [bind].
  assert (E3 : start_fenced_code z = Ok (SNone, z)) by (unfold start_fenced_code; rewrite B2; destruct (p_indented z); [reflexivity|]; replace (re_search reCodeFence []) with (@None rmatch) by (vm_compute; reflexivity); reflexivity). rewrite E3. cbn [bind].
  assert (E4 : start_html_block t z = Ok (SNone, z)) by (unfold start_html_block; rewrite B3, andb_false_r; reflexivity). rewrite E4. cbn [bind].
  assert (E5 : start_setext_heading t z = Ok (SNone, z)) by (unfold start_setext_heading; rewrite B2; destruct (_ && _); [|reflexivity]; replace (re_search reSetextHeadingLine []) with (@None rmatch) by (vm_compute; reflexivity); reflexivity). rewrite E5. cbn [bind].
  assert (E6 : start_thematic_break z = Ok (SNone, z)) by (unfold start_thematic_break; rewrite B2; replace (re_test reThematicBreak []) with false by (vm_compute; reflexivity); rewrite andb_false_r; reflexivity). rewrite E6. cbn [bind].
  assert (E7 : start_list_item t z = Ok (SNone, z)).
  { unfold start_list_item, parse_list_marker. rewrite B2. destruct (_ || _); [|reflexivity]. destruct (Nat.leb 4 (p_indent z)); [reflexivity|]. unfold list_marker.
    replace (re_search reBulletListMarker []) with (@None rmatch) by (vm_compute; reflexivity). replace (re_search reOrderedListMarker []) with (@None rmatch) by (vm_compute; reflexivity). reflexivity. }
  rewrite E7. cbn [bind]. unfold start_indented_code, tip. destruct (p_stack z); [congruence|]. cbn [hd_error of_option bind]. rewrite B1. cbn [negb]. rewrite andb_false_r. reflexivity.
Qed.
Lemma blank_loop x depth fu : blank_line (p_line x) -> p_offset x = 0 -> 1 <= depth <= length (p_stack x) ->
  exists y, starts_loop (S fu) depth x = Ok (depth, y) /\ keeps x y /\ p_blank y = true.
Proof.
  intros Hb Eo Hd. destruct (blank_fnn x Hb Eo) as [K B]. cbn [starts_loop]. remember (find_next_nonspace x) as z eqn:Z. clear Z.
  assert (Hend : keeps x (advance_next_nonspace z) /\ p_blank (advance_next_nonspace z) = true) by (split; [eapply keeps_trans; [exact K|apply keeps_ann]|apply (ab_blank _ B)]).
  destruct (_ && _); [eexists; split; [reflexivity|exact Hend]|]. pose proof K as (K1 & _). unfold block_at. rewrite K1.
  destruct (nth_error (p_stack x) (length (p_stack x) - depth)) as [c|] eqn:En; [|apply nth_error_None in En; lia]. cbn [of_option bind].
  rewrite blank_tries; [|exact B|rewrite K1; destruct (p_stack x); [cbn in Hd; lia|discriminate]]. cbn [bind]. eexists. split; [reflexivity|exact Hend].
Qed.
(** blocks that end at a blank line *)
Definition blank_ends (d : ndata) : Prop :=
  n_t d = paragraph \/ n_t d = heading \/ n_t d = thematic_break \/ n_t d = block_quote \/ (n_t d = html_block /\ (n_html_block_type d = Some 6 \/ n_html_block_type d = Some 7)).
Lemma blank_fails d b z : blank_ends d -> at_blank z -> continue_ d b z = Ok (CFail, z).
Proof.
  intros H [B1 B2 B3]. unfold continue_. destruct H as [-> | [-> | [-> | [-> | [-> [-> | ->]]]]]]; try reflexivity.
  - rewrite B1. reflexivity.
  - rewrite B3, andb_false_r. reflexivity.
  - cbn [of_option bind]. rewrite B1. reflexivity.
  - cbn [of_option bind]. rewrite B1. reflexivity.
Qed.

(** A blank line when the block in the document that is open is one of these *)
Lemma blank_closes l p up g d k : p_stack p = up ++ [g; F d k] -> blank_line l -> blank_ends (f_data g) -> n_t d = document -> n_sourcepos d <> None ->
  exists y, p_stack y = p_stack p /\ p_matched y = 1 /\ p_line_number y = S (p_line_number p) /\ p_refmap y = p_refmap p /\ p_smart y = p_smart p /\ p_last_line_length y = p_last_line_length p /\ p_blank y = true /\
    (forall e, close_loop (length (p_stack y)) y = Err e -> incorporate_line l p = Err e) /\
    (forall y1 k1, close_loop (length (p_stack y)) y = Ok y1 -> p_stack y1 = [F d k1] -> p_blank y1 = true ->
       exists p', incorporate_line l p = Ok p' /\ p_stack p' = [F (set_n_last_line_blank true d) (mark_last_blank k1)] /\ p_line_number p' = p_line_number y1 /\ p_refmap p' = p_refmap y1 /\ p_smart p' = p_smart y1).
Proof.
  intros Es Hb Hg Ed Hsp. rewrite incorporate_line_eq. cbn zeta. rewrite (blank_replace l Hb).
  assert (P : p_stack (line_start l p) = up ++ [g; F d k] /\ p_line (line_start l p) = l /\ p_offset (line_start l p) = 0 /\ p_line_number (line_start l p) = S (p_line_number p) /\ p_refmap (line_start l p) = p_refmap p /\ p_smart (line_start l p) = p_smart p /\ p_last_line_length (line_start l p) = p_last_line_length p) by (unfold line_start; cbn; auto 10).
  destruct P as (P1 & P2 & P3 & P4 & P5 & P6 & P7). remember (line_start l p) as x eqn:Z. clear Z.
  rewrite P1, rev_app_distr. cbn [rev app tl descend].
  destruct (blank_fnn x) as [K B]; [rewrite P2; exact Hb|exact P3|]. rewrite (blank_fails _ _ _ Hg B). cbn [bind].
  pose proof K as (K1 & K2 & K3 & K4 & K5 & K6 & K7 & K8). assert (Ko : p_offset (find_next_nonspace x) = 0) by (rewrite <- P3; unfold find_next_nonspace; destruct (skip_spaces _ _ _); reflexivity).
  remember (find_next_nonspace x) as z eqn:Z. clear Z. unfold line_rest. rewrite K1, P1, app_length. cbn [length].
  replace (Nat.eqb 1 (length up + 2)) with false by (symmetry; apply Nat.eqb_neq; lia).
  unfold block_at. cbn [p_stack set_p_matched set_p_all_closed]. rewrite K1, P1, app_length. cbn [length]. rewrite nth_error_app2 by lia. replace (length up + 2 - 1 - length up) with 1 by lia. cbn [nth_error of_option bind].
  unfold f_type. cbn [f_data]. rewrite Ed. change (accepts_lines document) with (Ok (A:=bool) false). cbn [bind]. rewrite andb_false_r. unfold line_tail.
  destruct (blank_loop (set_p_matched 1 (set_p_all_closed false z)) 1 (length l)) as (y & -> & Ky & By).
  { change (blank_line (p_line z)). rewrite K2, P2. exact Hb. }
  { exact Ko. }
  { change (1 <= 1 <= length (p_stack z)). rewrite K1, P1, app_length. cbn [length]. lia. }
  destruct Ky as (Y1 & Y2 & Y3 & Y4 & Y5 & Y6 & Y7 & Y8). cbn [p_stack p_line p_line_number p_all_closed p_matched p_refmap p_last_line_length p_smart set_p_matched set_p_all_closed] in *. cbn [bind].
  exists y. split; [congruence|]. split; [exact Y5|]. split; [congruence|]. split; [congruence|]. split; [congruence|]. split; [congruence|]. split; [exact By|].
  assert (Et : exists t, tip y = Ok t). { unfold tip. rewrite Y1, K1, P1. destruct up; eexists; reflexivity. } destruct Et as (t & Et).
  unfold line_end. rewrite Et, By, Y4. cbn [bind negb andb]. unfold add_text, close_unmatched_blocks. rewrite Y4. split.
  - intros e ->. reflexivity.
  - intros y1 k1 -> Es1 Bb. cbn [bind]. unfold tip. cbn [p_stack set_p_all_closed]. rewrite Es1. cbn [hd_error of_option bind f_data f_kids tl p_blank set_p_all_closed]. rewrite Bb.
    destruct (n_sourcepos d) as [[[sl sc] se]|] eqn:Esp; [|congruence]. cbn [bind]. unfold f_type. cbn [f_data]. rewrite Ed. cbn [ntype_eqb andb orb negb]. change (accepts_lines document) with (Ok (A:=bool) false). cbn [bind].
    cbn [p_blank set_p_stack set_p_all_closed]. rewrite Bb. cbn [negb]. rewrite andb_false_r. cbn [bind map]. eexists. split; [reflexivity|]. cbn [p_stack set_p_stack set_p_last_line_length set_f_data f_data f_kids p_line_number p_refmap p_smart set_p_all_closed]. auto.
Qed.

(** A blank line when no block is open *)
Lemma blank_doc l p d k : p_stack p = [F d k] -> blank_line l -> n_t d = document -> n_sourcepos d <> None ->
  exists p', incorporate_line l p = Ok p' /\ p_stack p' = [F (set_n_last_line_blank true d) (mark_last_blank k)] /\ p_line_number p' = S (p_line_number p) /\ p_refmap p' = p_refmap p /\ p_smart p' = p_smart p.
Proof.
  intros Es Hb Ed Ep. rewrite (incorporate_doc l p d k Es Ed), (blank_replace l Hb). unfold line_tail.
  destruct (fresh_fields l p) as (P1 & P2 & P3 & P4 & P5 & P6 & P7 & P8 & P9 & P10). remember (set_p_matched 1 (set_p_all_closed true (line_start l p))) as x eqn:Z. clear Z.
  destruct (blank_loop x 1 (length l)) as (y & -> & (Y1 & Y2 & Y3 & Y4 & Y5 & Y6 & Y7 & Y8) & By); [rewrite P2; exact Hb|exact P3|rewrite P1, Es; cbn; lia|]. cbn [bind].
  unfold line_end, tip. rewrite Y1, P1, Es. cbn [hd_error of_option bind]. rewrite Y4, P6. cbn [negb andb]. unfold add_text, close_unmatched_blocks. rewrite Y4, P6. cbn [bind]. unfold tip. rewrite Y1, P1, Es, By. cbn [hd_error of_option bind f_kids f_data tl].
  destruct (n_sourcepos d) as [[[sl sc] se]|] eqn:Esp; [|congruence]. cbn [bind]. unfold f_type. cbn [f_data]. rewrite Ed. cbn [ntype_eqb andb orb negb]. change (accepts_lines document) with (Ok (A:=bool) false). cbn [bind].
  cbn [p_blank set_p_stack]. rewrite By. cbn [negb]. rewrite andb_false_r. cbn [bind map]. eexists. split; [reflexivity|]. cbn [p_stack set_p_stack set_p_last_line_length set_f_data f_data f_kids p_line_number p_refmap p_smart]. repeat split; congruence.
Qed.
