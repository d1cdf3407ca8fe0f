(** * The HTML of an underlined paragraph (C65) *)
From Verif Require Import Base Regex Common NormRef Node Inlines Blocks Html Main RegexFacts StrFacts Spec SpecTree SpecSame SpecLines SpecParas SpecLazy
  TreeFacts StrProp InlineFacts HtmlFacts RenderFacts BlockFacts LineFacts ParseFacts SimFacts SameHtml ListHtml JoinDoc BreakExact BreakUnder.
Import SpecParas.

Lemma html_last_block o d k x : n_t d = document -> render_html o (T d (k ++ [x])) = let* s := html_events o (flat_map (events [d]) k) (HS [] [LF] 0) in let* s' := html_events o (events [d] x) s in Ok (h_buf s').
Proof.
  intros Ed. unfold render_html. rewrite html_document by exact Ed. change (h_dis new_html) with 0%Z. rewrite flat_map_app, html_events_app. destruct (html_events o (flat_map (events [d]) k) _) as [s|]; [|reflexivity]. cbn [bind flat_map]. rewrite app_nil_r.
  destruct (html_events o (events [d] x) s); reflexivity.
Qed.
Lemma block_html o d t name pk A : ho_sourcepos o = false -> n_t d = document ->
  (n_t t = paragraph /\ name = u "p" \/ n_t t = heading /\ exists n, n_level t = Some n /\ name = u "h" ++ str_of_nat n) ->
  html_events o (events [d] (T t pk)) (HS A [LF] 0) =
  let* x := html_events o (flat_map (events [t; d]) pk) (HS [] (u ">") 0) in Ok (HS (A ++ u "<" ++ name ++ u ">" ++ h_buf x ++ u "</" ++ name ++ u ">" ++ [LF]) [LF] 0).
Proof.
  intros Ho Ed Hn. cbn [events]. assert (Ec : is_container (n_t t) = true) by (destruct Hn as [[-> _]|[-> _]]; reflexivity). rewrite Ec. cbn [html_events].
  assert (E1 : html_node o t [d] true (HS A [LF] 0) = Ok (hp (A ++ u "<" ++ name ++ u ">") (HS [] (u ">") 0))).
  { unfold html_node. destruct Hn as [[-> ->]|[-> (n & En & ->)]]; [unfold h_paragraph|unfold h_heading; rewrite En]; rewrite (attrs_none o t Ho); cbn [bind level_str]; unfold h_cr, hp, h_tag; cbn; rewrite ?app_nil_r; reflexivity. }
  rewrite E1. cbn [bind]. rewrite html_events_app, hp_events. destruct (html_events o (flat_map (events [t; d]) pk) (HS [] (u ">") 0)) as [x|] eqn:Ex; [|reflexivity]. cbn [bind html_events].
  apply kids_dis in Ex. destruct x as [b l z]. cbn [h_dis] in Ex. subst z.
  assert (E2 : html_node o t [d] false (hp (A ++ u "<" ++ name ++ u ">") (HS b l 0)) = Ok (HS (A ++ u "<" ++ name ++ u ">" ++ b ++ u "</" ++ name ++ u ">" ++ [LF]) [LF] 0)).
  { unfold html_node. destruct Hn as [[-> ->]|[-> (n & En & ->)]]; [unfold h_paragraph|unfold h_heading; rewrite En]; cbn [bind level_str]; unfold h_cr, hp, h_tag0, h_tag, h_lit; cbn; rewrite <- ?app_assoc; cbn; rewrite <- ?app_assoc; cbn; rewrite <- ?app_assoc; reflexivity. }
  rewrite E2. reflexivity.
Qed.

Lemma under_html smart o ls i c ul d k pd pk h : ho_sourcepos o = false -> Forall (Forall code_point) ls -> Forall no_eol ls -> i <= 3 -> c = 61%N \/ c = 45%N -> underline_of c ul ->
  parse_doc smart (lines_text ls) = Ok (T d (k ++ [T pd pk])) -> n_t pd = paragraph -> last_line pd = length ls -> md_to_html smart o (lines_text ls) = Ok h ->
  exists a b, render_html o (T d k) = Ok a /\ h = a ++ u "<p>" ++ b ++ u "</p>" ++ [10%N] /\
    md_to_html smart o (lines_text (ls ++ [repeat 32%N i ++ ul])) = Ok (if N.eqb c 61 then a ++ u "<h1>" ++ b ++ u "</h1>" ++ [10%N] else a ++ u "<h2>" ++ b ++ u "</h2>" ++ [10%N]).
Proof.
  intros Ho Hc He Hi Hcc Hu E1 Hp Hl Eh. destruct (under_turns smart ls i c ul d k pd pk Hc He Hi Hcc Hu E1 Hp Hl) as (d' & hd & st & e & E2 & H1 & H2 & _).
  assert (P1 : Forall code_point (lines_text ls)) by (apply points_lines; exact Hc).
  assert (P2 : Forall code_point (lines_text (ls ++ [repeat 32%N i ++ ul]))).
  { apply points_lines, Forall_app. split; [exact Hc|]. constructor; [|constructor]. apply Forall_app. split; [apply Forall_forall; intros x Hx; apply repeat_spec in Hx; subst x; vm_compute; discriminate|].
    destruct Hu as (u0 & w & -> & Hw). apply Forall_app. split; [apply Forall_forall; intros x Hx; apply repeat_spec in Hx; subst x; destruct Hcc as [-> | ->]; vm_compute; discriminate|].
    eapply Forall_impl; [|exact Hw]. intros x [-> | ->]; vm_compute; discriminate. }
  destruct (doc_blocks _ _ _ _ P1 E1) as (D1 & D2). destruct (doc_blocks _ _ _ _ P2 E2) as (D3 & _). apply Forall_app in D2 as [D2 _].
  unfold md_to_html in *. rewrite E1 in Eh. rewrite E2. cbn [bind] in *. rewrite html_last_block in Eh by exact D1.
  assert (Er : exists A, render_html o (T d k) = Ok A).
  { unfold render_html. rewrite html_document by exact D1. change (h_dis new_html) with 0%Z. destruct (html_events o (flat_map (events [d]) k) _) as [s|]; [|discriminate]. eexists. reflexivity. }
  destruct Er as (A & Er). rewrite (html_of_blocks o d k A Ho D1 D2 Er d D1) in Eh. cbn [bind] in Eh. rewrite html_last_block, (html_of_blocks o d k A Ho D1 D2 Er d' D3) by exact D3. cbn [bind].
  rewrite (block_html o d pd (u "p") pk A Ho D1 (or_introl (conj Hp eq_refl))) in Eh.
  rewrite (block_html o d' hd (u "h" ++ str_of_nat (if N.eqb c 61 then 1 else 2)) pk A Ho D3 (or_intror (conj H1 (ex_intro _ _ (conj H2 eq_refl))))).
  rewrite (html_kids_same o Ho pk pk [pd; d] [hd; d']); [|clear; induction pk; constructor; [apply eqp_refl|assumption]|].
  2:{ split; [reflexivity|]. cbn [hd_error tl gkey]. rewrite D1, D3, Hp, H1. split; reflexivity. }
  destruct (html_events o (flat_map (events [pd; d]) pk) _) as [x|]; [|discriminate]. cbn [bind h_buf] in *. apply Ok_inj in Eh as <-. exists A, (h_buf x). split; [exact Er|]. split; [reflexivity|].
  destruct (N.eqb c 61); reflexivity.
Qed.
