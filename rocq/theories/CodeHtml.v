(** * The HTML of documents of one code block: C17, C18 *)
From Verif Require Import Base Regex Common NormRef Node Inlines Blocks Html Main RegexFacts StrFacts Spec SpecTree SpecSame SpecLines
  TreeFacts CommonFacts StrProp EmphFacts InlineFacts InlineInv HtmlFacts RenderFacts BlockFacts LineFacts ParseFacts Sim SimFacts SameHtml DocFacts TextFacts WordFacts EmphDoc RuleFacts MarkFacts LeafFacts FenceFacts IndentFacts.
From Coq Require Import ZifyBool ZifyNat ZifyN.

(** ** Its HTML *)
Lemma code_html o dd cd lit cls : ho_sourcepos o = false -> n_t dd = document -> n_t cd = code_block -> n_literal cd = Some lit ->
  match (if truthy (n_info cd) then split_ws (or_empty (n_info cd)) else []) with [] => cls = [] | w :: _ => w <> [] /\ cls = u " class=""language-" ++ html_text w ++ u """" end ->
  render_html o (T dd [T cd []]) = Ok (u "<pre><code" ++ cls ++ u ">" ++ html_text lit ++ u "</code></pre>" ++ [10%N]).
Proof.
  intros Ho Ed Ec El Hcls. unfold render_html. rewrite html_document by exact Ed. cbn [flat_map]. rewrite app_nil_r. cbn [events]. rewrite Ec. change (is_container code_block) with false. cbv iota. cbn [html_events].
  unfold html_node. rewrite Ec. unfold h_code_block, attrs_of. rewrite Ho, El. set (words := if truthy (n_info cd) then _ else _) in *.
  assert (Ecl : flat_map attr_text ([] ++ match words with w :: _ => if is_nil w then [] else [(u "class", u "language-" ++ escape_xml w)] | [] => [] end) = cls).
  { cbn [app]. destruct words as [|w ws]; [subst cls; reflexivity|]. destruct Hcls as [Hw ->]. destruct w as [|w0 w]; [congruence|]. cbn [is_nil flat_map]. unfold attr_text. cbn [fst snd]. rewrite escape_xml_html, app_nil_r, <- !app_assoc. reflexivity. }
  remember (match words with w :: _ => _ | [] => [] end) as attrs eqn:Z. clear Z Hcls. cbn [app] in *. change (h_cr (HS [] [LF] (h_dis new_html))) with (HS [] [LF] 0).
  change (h_tag0 (u "pre") (HS [] [LF] 0)) with (HS (u "<pre>") (u ">") 0). unfold h_tag at 1. cbn [h_dis h_buf]. change (Z.ltb 0 0) with false. cbv iota. rewrite Ecl. cbn [app].
  unfold h_out, h_lit at 1. cbn [h_buf h_dis escape_xml_opt]. unfold h_tag0, h_tag. cbn [h_dis h_buf flat_map]. change (Z.ltb 0 0) with false. cbv iota. cbn [h_dis h_buf]. change (Z.ltb 0 0) with false. cbv iota.
  unfold h_cr. cbn [h_last]. change (str_eqb (u ">") [LF]) with false. cbv iota. unfold h_lit. cbn [h_buf bind]. rewrite escape_xml_html, <- !app_assoc. reflexivity.
Qed.
Lemma split_first w1 w r : Forall (fun x => is_space x = true) w1 -> Forall (fun x => is_space x = false) w -> w <> [] -> (forall x, hd_error r = Some x -> is_space x = true) -> exists ws, split_ws (w1 ++ w ++ r) = w :: ws.
Proof.
  intros H1 Hw Hne Hr. unfold split_ws. induction w1 as [|a w1 IH]; cbn [app split_ws_aux].
  - clear H1. assert (G : forall w cur, Forall (fun x => is_space x = false) w -> (cur <> [] \/ w <> []) -> exists ws, split_ws_aux cur (w ++ r) = (rev cur ++ w) :: ws).
    { clear w Hw Hne. induction w as [|b w IH]; intros cur Hw Hne; cbn [app].
      - destruct Hne as [Hne|Hne]; [|congruence]. rewrite app_nil_r. destruct r as [|y r]; cbn [split_ws_aux]; [|rewrite (Hr y eq_refl)]; (destruct cur; [congruence|]); cbn [is_nil]; eexists; reflexivity.
      - cbn [split_ws_aux]. rewrite (Forall_inv Hw). destruct (IH (b :: cur) (Forall_inv_tail Hw)) as (ws & ->); [left; discriminate|]. exists ws. cbn [rev]. rewrite <- app_assoc. reflexivity. }
    apply (G w []); [exact Hw|right; exact Hne].
  - rewrite (Forall_inv H1). cbn [is_nil]. apply IH. exact (Forall_inv_tail H1).
Qed.
Lemma unescape_nil : unescape_string [] = [].
Proof. apply unescape_string_plain; intros []. Qed.
(** without an info string *)
Theorem fence_md smart o i c n ls close : ho_sourcepos o = false -> i <= 3 -> fence_char c -> 3 <= n -> Forall no_eol ls -> Forall (fun x => ~ closes_fence c n x) ls -> fence_end c n close ->
  md_to_html smart o (flat_map (fun x => x ++ [10%N]) ((repeat 32%N i ++ repeat c n) :: ls ++ close)) =
  Ok (u "<pre><code>" ++ html_text (flat_map (fun x => unindent i (replace_char 0 65533 x) ++ [10%N]) ls) ++ u "</code></pre>" ++ [10%N]).
Proof.
  intros Ho Hi Hc Hn Hls Hcl He. destruct (fence_doc smart i (repeat c n) c n [] ls close Hi) as (dd & cd & E & D1 & D2 & D3 & D4); [|intros x []|exact Hls|exact Hcl|exact He|].
  - split; [rewrite app_nil_r; reflexivity|]. split; [exact Hc|]. split; [exact Hn|]. split; [discriminate|intros _ []].
  - unfold md_to_html. rewrite E. cbn [bind]. rewrite (code_html o dd cd _ [] Ho D1 D2 D4); [reflexivity|]. rewrite D3. change (strip (replace_char 0 65533 [])) with (@nil N). rewrite unescape_nil. reflexivity.
Qed.
(** with one whose first word is [w] *)
Lemma strip_words w1 w r : Forall (fun x => is_space x = true) w1 -> Forall (fun x => is_space x = false) w -> w <> [] -> (forall x, hd_error r = Some x -> is_space x = true) ->
  exists r', strip (w1 ++ w ++ r) = w ++ r' /\ (forall x, hd_error r' = Some x -> is_space x = true) /\ (forall x, In x r' -> In x r).
Proof.
  intros H1 Hw Hne Hr. unfold strip, strip_left, strip_right. assert (E1 : drop_while is_space (w1 ++ w ++ r) = w ++ r).
  { induction w1 as [|a w1 IH]; cbn [app drop_while]; [|rewrite (Forall_inv H1); apply IH, (Forall_inv_tail H1)]. destruct w as [|b w]; [congruence|]. cbn [app drop_while]. rewrite (Forall_inv Hw). reflexivity. }
  rewrite E1, rev_app_distr. assert (G : forall a b, Forall (fun x => is_space x = false) b -> b <> [] -> exists a', drop_while is_space (a ++ b) = a' ++ b /\ exists a'', a = a'' ++ a').
  { clear. induction a as [|x a IH]; intros b Hb Hne; cbn [app drop_while].
    - exists []. split; [|exists []; reflexivity]. destruct b as [|y b]; [congruence|]. cbn [drop_while]. rewrite (Forall_inv Hb). reflexivity.
    - destruct (is_space x); [|exists (x :: a); split; [reflexivity|exists []; reflexivity]]. destruct (IH b Hb Hne) as (a' & -> & a'' & ->). exists a'. split; [reflexivity|]. exists (x :: a''). reflexivity. }
  destruct (G (rev r) (rev w)) as (a' & -> & a'' & Ea); [apply Forall_rev; exact Hw|intros X; apply Hne; rewrite <- (rev_involutive w), X; reflexivity|].
  exists (rev a'). rewrite rev_app_distr, rev_involutive. split; [reflexivity|]. assert (Er : r = rev a' ++ rev a'') by (rewrite <- (rev_involutive r), Ea, rev_app_distr; reflexivity). split.
  - intros x Hx. apply Hr. rewrite Er. destruct (rev a'); [discriminate|exact Hx].
  - intros x Hx. rewrite Er. apply in_or_app. left. exact Hx.
Qed.
Theorem fence_info_md smart o i c n w1 w r ls close : ho_sourcepos o = false -> i <= 3 -> opens_fence (repeat c n ++ w1 ++ w ++ r) c n (w1 ++ w ++ r) -> no_eol (w1 ++ w ++ r) -> ~ In 0%N (w1 ++ w ++ r) -> ~ In 92%N (w1 ++ w ++ r) -> ~ In 38%N (w1 ++ w ++ r) ->
  Forall (fun x => is_space x = true) w1 -> Forall (fun x => is_space x = false) w -> w <> [] -> (forall x, hd_error r = Some x -> is_space x = true) ->
  Forall no_eol ls -> Forall (fun x => ~ closes_fence c n x) ls -> fence_end c n close ->
  md_to_html smart o (flat_map (fun x => x ++ [10%N]) ((repeat 32%N i ++ repeat c n ++ w1 ++ w ++ r) :: ls ++ close)) =
  Ok (u "<pre><code class=""language-" ++ html_text w ++ u """>" ++ html_text (flat_map (fun x => unindent i (replace_char 0 65533 x) ++ [10%N]) ls) ++ u "</code></pre>" ++ [10%N]).
Proof.
  intros Ho Hi Hop Hne H0 H92 H38 Hw1 Hw Hwne Hr Hls Hcl He. destruct (fence_doc smart i _ c n _ ls close Hi Hop Hne Hls Hcl He) as (dd & cd & E & D1 & D2 & D3 & D4).
  unfold md_to_html. rewrite E. cbn [bind]. rewrite replace_ascii in D3 by exact H0. destruct (strip_words w1 w r Hw1 Hw Hwne Hr) as (r' & Es & Hr' & Hin). rewrite Es in D3.
  assert (Hi' : forall x, In x (w ++ r') -> In x (w1 ++ w ++ r)) by (intros x Hx; rewrite !in_app_iff; apply in_app_or in Hx as [Hx|Hx]; [auto|right; right; apply Hin, Hx]).
  rewrite unescape_string_plain in D3 by auto. rewrite (code_html o dd cd _ (u " class=""language-" ++ html_text w ++ u """") Ho D1 D2 D4); [rewrite <- !app_assoc; reflexivity|].
  rewrite D3. destruct (split_first [] w r' ltac:(constructor) Hw Hwne Hr') as (ws & Ews). cbn [app] in Ews. unfold truthy, or_empty. rewrite Ews. destruct w as [|x w]; [congruence|]. cbn [app is_nil negb]. split; [discriminate|reflexivity].
Qed.

(** ** Indented code *)
Theorem indent_md smart o ls cs body tail : ho_sourcepos o = false -> Forall2 code_line ls cs -> Forall no_eol ls -> cs = body ++ tail -> body <> [] -> ~ blanks (hd [] body) -> ~ blanks (last body []) -> Forall (Forall (fun x => x = 32%N)) tail ->
  md_to_html smart o (flat_map (fun x => x ++ [10%N]) ls) = Ok (u "<pre><code>" ++ html_text (flat_map (fun c => replace_char 0 65533 c ++ [10%N]) body) ++ u "</code></pre>" ++ [10%N]).
Proof.
  intros Ho H1 H2 H3 H4 H5 H6 H7. destruct (indent_doc smart ls cs body tail H1 H2 H3 H4 H5 H6 H7) as (dd & cd & E & D1 & D2 & D3 & D4). unfold md_to_html. rewrite E. cbn [bind].
  rewrite (code_html o dd cd _ [] Ho D1 D2 D4); [reflexivity|]. rewrite D3. reflexivity.
Qed.
