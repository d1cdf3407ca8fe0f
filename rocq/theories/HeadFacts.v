(** * The HTML of documents of one rule or one heading *)
From Verif Require Import Base Regex Common NormRef Node Inlines Blocks Html Main RegexFacts StrFacts Spec SpecTree SpecSame SpecLines
  TreeFacts CommonFacts StrProp EmphFacts InlineFacts InlineInv HtmlFacts RenderFacts BlockFacts LineFacts ParseFacts Sim SimFacts SameHtml DocFacts TextFacts WordFacts EmphDoc RuleFacts MarkFacts FlankFacts LeafFacts.
From Coq Require Import ZifyBool ZifyNat ZifyN.

Lemma rule_html o dd rd : ho_sourcepos o = false -> n_t dd = document -> n_t rd = thematic_break -> render_html o (T dd [T rd []]) = Ok (u "<hr />" ++ [LF]).
Proof.
  intros Ho Ed Er. unfold render_html. rewrite html_document by exact Ed. cbn [flat_map]. rewrite app_nil_r. cbn [events]. rewrite Er. change (is_container thematic_break) with false. cbv iota. cbn [html_events].
  unfold html_node. rewrite Er. unfold h_thematic_break, attrs_of. rewrite Ho. reflexivity.
Qed.
Theorem rule_md smart o i l : ho_sourcepos o = false -> i <= 3 -> rule_line l ->
  (exists dd rd, parse_doc smart (repeat 32%N i ++ l) = Ok (T dd [T rd []]) /\ n_t dd = document /\ n_t rd = thematic_break) /\ md_to_html smart o (repeat 32%N i ++ l) = Ok (u "<hr />" ++ [10%N]).
Proof.
  intros Ho Hi Hl. destruct (rule_doc smart i l Hi Hl) as (dd & rd & E & D1 & D2). split; [exists dd, rd; auto|].
  unfold md_to_html. change (repeat 32%N i) with (repeat SP i). rewrite E. cbn [bind]. apply rule_html; assumption.
Qed.
Lemma heading_html o dd hd n k s : ho_sourcepos o = false -> n_t dd = document -> n_t hd = heading -> n_level hd = Some n ->
  (forall st, h_dis st = 0%Z -> exists l, html_events o (flat_map (events [hd; dd]) k) st = Ok (HS (h_buf st ++ s) l (h_dis st))) ->
  render_html o (T dd [T hd k]) = Ok (u "<h" ++ str_of_nat n ++ u ">" ++ s ++ u "</h" ++ str_of_nat n ++ u ">" ++ [LF]).
Proof.
  intros Ho Ed Eh El Hk. unfold render_html. rewrite html_document by exact Ed. cbn [flat_map]. rewrite app_nil_r. cbn [events]. rewrite Eh. change (is_container heading) with true. cbv iota. cbn [html_events].
  assert (En : forall e st, html_node o hd [dd] e st = Ok (if e then h_tag (u "h" ++ str_of_nat n) [] false (h_cr st) else h_cr (h_tag0 (u "/" ++ u "h" ++ str_of_nat n) st))).
  { intros e st. unfold html_node. rewrite Eh. unfold h_heading, attrs_of. rewrite Ho, El. reflexivity. }
  rewrite En. cbn [bind]. rewrite html_events_app.
  change (h_tag (u "h" ++ str_of_nat n) [] false (h_cr (HS [] [LF] (h_dis new_html)))) with (HS (u "<" ++ (u "h" ++ str_of_nat n) ++ [] ++ [] ++ u ">") (u ">") 0).
  match goal with |- context [html_events o (flat_map _ _) ?s] => destruct (Hk s eq_refl) as (l & ->) end. cbn [bind html_events]. rewrite En. cbn [bind h_buf h_dis].
  unfold h_tag0, h_tag. cbn [h_dis]. change (Z.ltb 0 0) with false. cbv iota. unfold h_cr. cbn [h_last]. change (str_eqb (u ">") [LF]) with false. cbv iota. unfold h_lit. cbn [h_buf flat_map]. rewrite <- !app_assoc. reflexivity.
Qed.
Lemma tame_inlines content s : ip_smart s = false -> forallb tame (strip content) = true -> exists ls s', parseInlines content s = Ok (map text_node ls, s') /\ concat ls = strip content.
Proof.
  intros Hs Ht. unfold parseInlines. destruct (tame_all_run (strip content) (IP (strip content) 0 (ip_refmap s) (ip_smart s) [] [] [] 0) (S (length (strip content)))) as (st' & K & ls & -> & (A1 & A2 & A3 & A4 & A5 & A6 & A7 & _) & Ec); [reflexivity|exact Ht|reflexivity|exact Hs|lia|].
  cbn [bind]. cbn [ip_delims ip_kids] in A4, A6. rewrite A4, emphasis_none. cbn [bind]. exists ls. eexists. split; [|exact Ec]. rewrite A6. cbn [app]. rewrite A7. reflexivity.
Qed.
Lemma forallb_sub (f : N -> bool) s s' : forallb f s = true -> (forall x, In x s' -> In x s) -> forallb f s' = true.
Proof. intros H Hin. rewrite forallb_forall in *. auto. Qed.
Lemma strip_in s x : In x (strip s) -> In x s.
Proof.
  unfold strip, strip_right, strip_left. intros H. apply in_rev in H. assert (G : forall (l : str), In x (drop_while is_space l) -> In x l) by (intros l X; rewrite <- (take_drop_while is_space l); apply in_or_app; right; exact X).
  apply G, in_rev, G in H. exact H.
Qed.
(** A heading with ordinary text *)
Theorem heading_md o i l n s : ho_sourcepos o = false -> i <= 3 -> atx_line l n s -> Forall ordinary_char s ->
  exists b, heading_text s b /\ md_to_html false o (repeat 32%N i ++ l) = Ok (u "<h" ++ str_of_nat n ++ u ">" ++ html_text (strip b) ++ u "</h" ++ str_of_nat n ++ u ">" ++ [10%N]).
Proof.
  intros Ho Hi Ha Hs. apply plain_tame in Hs. assert (Hs' : forall x, In x s -> x <> 10%N /\ x <> 13%N /\ x <> 0%N) by (intros x Hx; rewrite forallb_forall in Hs; specialize (Hs x Hx); unfold tame in Hs; cbn [existsb] in Hs; lia).
  assert (Hl : no_eol l). { destruct Ha as (_ & w & -> & Hw & _). intros x Hx. rewrite !in_app_iff in Hx. destruct Hx as [Hx|[Hx|Hx]]; [apply repeat_spec in Hx as ->; split; discriminate| |destruct (Hs' x Hx) as (A & B & _); auto].
    unfold blanks in Hw. rewrite Forall_forall in Hw. destruct (Hw x Hx) as [->| ->]; split; discriminate. }
  destruct (heading_doc false i l n s Hi Hl Ha) as (dd & hd & b & st & Hb & D1 & D2 & D3 & _ & D4 & E). rewrite replace_ascii in Hb by (intros X; destruct (Hs' _ X) as (_ & _ & Y); congruence).
  exists b. split; [exact Hb|]. assert (Tb : forallb tame b = true).
  { apply (forallb_sub _ s); [exact Hs|]. destruct Hb as [[_ ->]|[(_ & w & e & -> & _)|(_ & -> & _)]]; intros x Hx; [destruct Hx|apply in_or_app; left; exact Hx|exact Hx]. }
  destruct (tame_inlines b st D4) as (ls & s' & Ei & Ec); [eapply forallb_sub; [exact Tb|apply strip_in]|].
  unfold md_to_html. change (repeat 32%N i) with (repeat SP i). rewrite E, Ei. cbn [bind]. rewrite (heading_html o dd hd n _ (html_text (strip b)) Ho D1 D2 D3); [reflexivity|].
  intros h _. destruct (texts_html o [hd; dd] ls h) as (l0 & ->). exists l0. rewrite Ec, escape_xml_html. reflexivity.
Qed.
