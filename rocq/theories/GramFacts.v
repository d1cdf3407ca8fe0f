(** * Documents of blocks inside blocks *)
From Verif Require Import Base Regex Common NormRef Node Inlines Blocks Html Main RegexFacts StrFacts Spec SpecTree SpecSame SpecLines SpecParas SpecLists SpecPieces SpecNest SpecItems SpecJoin SpecMany SpecDoc
  HtmlFacts LineFacts ParseFacts SimFacts SameHtml DocFacts TextFacts WordFacts LeafFacts HeadFacts FlankFacts IndentFacts CodeHtml CodeThen HtmlBlockFacts ParaDoc ListHtml PieceFacts NestFacts ItemHtml JoinDoc JoinBlank ManyHtml.
From Coq Require Import ZifyBool ZifyNat ZifyN.

(** ** Texts as lines *)
Notation text := (flat_map (fun l : str => l ++ [10%N])).
Lemma text_app a b : text (a ++ b) = text a ++ text b.
Proof. apply flat_map_app. Qed.
Lemma text_in ls c : In c (text ls) -> c = 10%N \/ exists l, In l ls /\ In c l.
Proof. intros H. apply in_flat_map in H as (l & Hl & H). apply in_app_iff in H as [H|[<-|[]]]; [right; exists l; auto|auto]. Qed.
Lemma plain_eol ls : Forall clean_line ls -> Forall no_eol ls.
Proof. apply Forall_impl. intros l H. apply H. Qed.
Lemma plain_code ls : Forall clean_line ls -> Forall (Forall code_point) ls.
Proof. apply Forall_impl. intros l H. apply H. Qed.
Lemma text_code ls : Forall clean_line ls -> Forall code_point (text ls).
Proof.
  intros H. rewrite Forall_forall in H. apply Forall_forall. intros c Hc. apply text_in in Hc as [->|(l & Hl & Hc)]; [unfold code_point; lia|]. destruct (H l Hl) as (G & _). rewrite Forall_forall in G. apply G, Hc.
Qed.
Lemma text_without ls : Forall clean_line ls -> without (u "]:") (text ls).
Proof.
  induction 1 as [|l ls (_ & _ & _ & _ & _ & Hl) _ IH]; intros p q; cbn [flat_map]; [destruct p; discriminate|]. intros E. change (u "]:") with [93; 58]%N in *. rewrite <- app_assoc in E. symmetry in E. apply app_split in E as (m & [[E1 E2]|[E1 E2]]).
  - (* the mark begins behind the line *) destruct m as [|x m]; [cbn in E2; discriminate|]. injection E2 as _ E2. apply (IH m q). exact E2.
  - destruct m as [|x m]; [cbn in E2; discriminate|]. injection E2 as <- E2. destruct m as [|x m]; [cbn in E2; discriminate|]. injection E2 as <- E2. apply (Hl p m). rewrite E1. reflexivity.
Qed.
Lemma text_lines_text ls : Forall no_eol ls -> text_lines (text ls) = if is_nil ls then [[]] else ls.
Proof. intros H. destruct ls as [|l ls]; [reflexivity|]. apply text_lines_lines; [exact H|discriminate]. Qed.
Lemma text_hd ls : Forall no_eol ls -> hd [] (text_lines (text ls)) = hd [] ls.
Proof. intros H. rewrite text_lines_text by exact H. destruct ls; reflexivity. Qed.
Lemma text_last ls : ls <> [] -> last_opt (text ls) = Some LF.
Proof. intros H. destruct (exists_last H) as (a & x & ->). rewrite text_app. cbn [flat_map]. rewrite app_nil_r, app_assoc, last_opt_app by discriminate. reflexivity. Qed.
Lemma same_lines smart s s' : text_lines s = text_lines s' -> parse_doc smart s = parse_doc smart s'.
Proof. intros H. unfold parse_doc. rewrite (parse_lines _ s s' H). reflexivity. Qed.
Lemma one_line smart l : no_eol l -> parse_doc smart (text [l]) = parse_doc smart l.
Proof. intros H. apply same_lines. rewrite (text_lines_one l H). apply (text_lines_lines [l]); [constructor; [exact H|constructor]|discriminate]. Qed.
Lemma one_line_html smart o l : no_eol l -> md_to_html smart o (text [l]) = md_to_html smart o l.
Proof. intros H. unfold md_to_html. rewrite one_line by exact H. reflexivity. Qed.

(** ** Plain lines *)
Lemma plain_nil : clean_line [].
Proof. split; [constructor|]. split; [tauto|]. split; [intros x []|]. split; [tauto|]. split; [reflexivity|]. intros p q E. destruct p; discriminate. Qed.
Lemma plain_blank l : clean_line l -> blanks l -> l = [].
Proof. intros (_ & _ & _ & H9 & Hs & _) Hb. apply Hs. intros c Hc. unfold blanks in Hb. rewrite Forall_forall in Hb. destruct (Hb c Hc) as [->| ->]; [reflexivity|contradiction]. Qed.
Lemma plain_before w l : (forall c, In c w -> c = 32%N \/ c = 62%N) -> clean_line l -> (l <> [] \/ In 62%N w) -> clean_line (w ++ l).
Proof.
  intros Hw (H1 & H2 & H3 & H4 & H5 & H6) Hne. assert (Hc : forall c, In c w -> code_point c /\ c <> 0%N /\ c <> 10%N /\ c <> 13%N /\ c <> 9%N) by (intros c X; apply Hw in X as [->| ->]; repeat split; (discriminate || (unfold code_point; lia))).
  split; [apply Forall_app; split; [apply Forall_forall; intros c X; apply Hc, X|exact H1]|].
  split; [intros X; apply in_app_iff in X as [X|X]; [apply Hc in X; tauto|tauto]|]. split; [intros c X; apply in_app_iff in X as [X|X]; [apply Hc in X; tauto|apply H3, X]|].
  split; [intros X; apply in_app_iff in X as [X|X]; [apply Hc in X; tauto|tauto]|].
  split.
  - intros X. exfalso. destruct Hne as [Hne|Hi]; [|specialize (X 62%N ltac:(apply in_or_app; auto)); discriminate]. apply Hne, H5. intros c Y. apply X. apply in_or_app. auto.
  - intros p q E. change (u "]:") with [93; 58]%N in *. symmetry in E. apply app_split in E as (m & [[E1 E2]|[E1 E2]]); [apply (H6 m q); exact E2|]. destruct m as [|x m]; [apply (H6 [] q); symmetry; exact E2|]. injection E2 as <- E2. assert (In 93%N w) by (rewrite E1; apply in_or_app; right; left; reflexivity). apply Hw in H as [H|H]; discriminate.
Qed.
Lemma plain_indent n l : clean_line l -> clean_line (indent n l).
Proof.
  intros H. unfold indent. destruct l as [|c l]; [exact plain_nil|]. cbn [is_nil]. apply plain_before; [intros x X; apply repeat_spec in X; auto|exact H|left; discriminate].
Qed.
Lemma plain_apart ls : Forall (Forall clean_line) ls -> Forall clean_line (apart ls).
Proof.
  induction 1 as [|x ls Hx _ IH]; [constructor|]. cbn [apart]. destruct ls as [|y ls]; [exact Hx|]. apply Forall_app. split; [exact Hx|]. constructor; [exact plain_nil|exact IH].
Qed.

(** ** One text behind another *)
Section Opts.
Variable o : hopts.
Hypothesis Ho : ho_sourcepos o = false.
Hypothesis Hsafe : ho_safe o = false.
Notation md := (md_to_html false o).
Lemma md_blank ls : Forall clean_line ls -> md (text ([] :: ls)) = md (text ls).
Proof.
  intros H. cbn [flat_map app]. pose proof (blank_before_html false o (text ls) [[]] Ho (text_code ls H)) as E. cbn [flat_map app] in E. apply E. constructor; [intros c []|constructor].
Qed.
Lemma md_nil : md (text []) = Ok [].
Proof. apply blank_chars. intros c []. Qed.
Lemma md_nil1 : md (text [[]]) = Ok [].
Proof. rewrite md_blank by constructor. exact md_nil. Qed.
Lemma join_lines a b da ka A B : Forall clean_line a -> Forall clean_line b -> a <> [] -> parse_doc false (text a) = Ok (T da ka) ->
  match last_opt ka with
  | None => True
  | Some t =>
      match t_type t with
      | heading | thematic_break => True
      | code_block => n_is_fenced (t_data t) = false /\ flush_left (hd [] b)
      | paragraph | block_quote => hd [] b = []
      | list_ => last_opt a = Some [] /\ flush_left (hd [] b) /\ no_item (hd [] b)
      | _ => False
      end
  end ->
  md (text a) = Ok A -> md (text b) = Ok B -> md (text (a ++ b)) = Ok (A ++ B).
Proof.
  intros Ha Hb Hne E Hs EA EB. rewrite text_app.
  assert (Hw : without (u "]:") (text a ++ text b)) by (rewrite <- text_app; apply text_without, Forall_app; auto).
  rewrite (joined_html false o (text a) (text b) da ka A Ho (text_code a Ha) (text_code b Hb) (text_last a Hne) Hw E); [rewrite EB; reflexivity| |exact EA].
  unfold separated. rewrite (text_lines_lines a (plain_eol a Ha) Hne), (text_hd b (plain_eol b Hb)). destruct (last_opt ka) as [t|]; [|exact I]. right. destruct (t_type t); try exact Hs. left. exact Hs.
Qed.

(** ** The blocks one by one. [rest] is what follows: nothing, or an empty line and more *)
Definition tail_ok (b : block) (rest : list str) : Prop := rest = [] \/ exists r, rest = [] :: r /\ (r = [] \/ followed b (hd [] r)).
Definition renders (b : block) : Prop :=
  forall rest R, tail_ok b rest -> Forall clean_line rest -> md (text rest) = Ok R -> md (text (block_lines b ++ rest)) = Ok (block_html (ho_softbreak o) b ++ R).
Lemma tail_hd b rest : tail_ok b rest -> hd [] rest = [].
Proof. intros [->|(r & -> & _)]; reflexivity. Qed.
(** blocks which an empty line closes *)
Lemma closed_renders b dd d k : Forall clean_line (block_lines b) -> block_lines b <> [] -> parse_doc false (text (block_lines b)) = Ok (T dd [T d k]) ->
  match n_t d with paragraph | block_quote | heading | thematic_break => True | _ => False end ->
  md (text (block_lines b)) = Ok (block_html (ho_softbreak o) b) -> renders b.
Proof.
  intros Hp Hne E Ht Em rest R Hr Hpr ER. apply (join_lines _ _ dd [T d k] _ _ Hp Hpr Hne E); [|exact Em|exact ER]. cbn [last_opt]. unfold t_type. cbn [t_data].
  pose proof (tail_hd b rest Hr) as Hh. destruct (n_t d); try contradiction; auto.
Qed.
(** blocks which go on behind an empty line *)
Lemma open_renders b : Forall clean_line (block_lines b) -> block_lines b <> [] ->
  md (text (block_lines b)) = Ok (block_html (ho_softbreak o) b) -> md (text (block_lines b ++ [[]])) = Ok (block_html (ho_softbreak o) b) ->
  (exists dd k, parse_doc false (text (block_lines b ++ [[]])) = Ok (T dd k) /\
     match last_opt k with
     | None => True
     | Some t => (t_type t = code_block /\ n_is_fenced (t_data t) = false /\ forall l, followed b l -> flush_left l) \/ (t_type t = list_ /\ forall l, followed b l -> flush_left l /\ no_item l)
     end) -> renders b.
Proof.
  intros Hp Hne E1 E2 (dd & k & E & Hk) rest R Hr Hpr ER. destruct Hr as [->|(r & -> & Hr)]; [rewrite app_nil_r; rewrite md_nil in ER; injection ER as <-; rewrite app_nil_r; exact E1|].
  rewrite md_blank in ER by (inversion Hpr; assumption). apply Forall_inv_tail in Hpr. destruct Hr as [->|Hr]; [rewrite md_nil in ER; injection ER as <-; rewrite app_nil_r; exact E2|].
  change (block_lines b ++ [] :: r) with (block_lines b ++ [[]] ++ r). rewrite app_assoc. apply (join_lines _ _ dd k _ _); [apply Forall_app; split; [exact Hp|constructor; [exact plain_nil|constructor]]|exact Hpr|destruct (block_lines b); discriminate|exact E| |exact E2|exact ER].
  destruct (last_opt k) as [t|]; [|exact I]. destruct Hk as [(-> & Hf & Hk)|(-> & Hk)]; [auto|]. split; [rewrite last_opt_app by discriminate; reflexivity|apply Hk, Hr].
Qed.
(** *** Leaves *)
Lemma phrase_renders w l : nest_ok is_space punctuation true w l -> Forall clean_line (block_lines (Phrase w l)) -> renders (Phrase w l).
Proof.
  intros Hn Hp. destruct (nest_both o Ho Hsafe w l Hn) as [(dd & pd & k & E & Ht) Em]. cbn [block_lines] in Hp. pose proof (Forall_inv (plain_eol _ Hp)) as He.
  apply (closed_renders (Phrase w l) dd pd k Hp); cbn [block_lines]; [discriminate|rewrite one_line by exact He; exact E|rewrite Ht; exact I|]. rewrite one_line_html, Em by exact He. cbn [block_html]. rewrite <- !app_assoc. reflexivity.
Qed.
Lemma para_text_lines l : para_text l = text (map para_line_text l).
Proof. unfold para_text. induction l as [|a l IH]; [reflexivity|]. cbn [map flat_map]. rewrite IH. reflexivity. Qed.
Lemma lines_renders l : para_ok l -> Forall clean_line (block_lines (Lines l)) -> renders (Lines l).
Proof.
  intros Hl Hp. destruct (lines_both o l Ho Hl) as [(dd & pd & k & E & Ht) Em]. rewrite para_text_lines in E, Em.
  apply (closed_renders (Lines l) dd pd k Hp); cbn [block_lines]; [destruct l; [destruct Hl|discriminate]|exact E|rewrite Ht; exact I|exact Em].
Qed.
Lemma under_renders c n l : c = 61%N \/ c = 45%N -> 1 <= n -> para_ok l -> Forall clean_line (block_lines (Underlined c n l)) -> renders (Underlined c n l).
Proof.
  intros Hc Hn Hl Hp. assert (Hu : underline_of c (repeat c n)) by (exists (n - 1), []; split; [rewrite app_nil_r; f_equal; lia|constructor]).
  destruct (setext_both o l 0 c (repeat c n) Ho Hl ltac:(lia) Hc Hu) as [(dd & hd & k & E & Ht) Em]. cbn [repeat app] in E, Em.
  assert (Et : para_text l ++ repeat c n ++ [10%N] = text (block_lines (Underlined c n l))) by (cbn [block_lines]; rewrite text_app, <- para_text_lines; cbn [flat_map]; rewrite app_nil_r; reflexivity).
  rewrite Et in E, Em. apply (closed_renders (Underlined c n l) dd hd k Hp); [cbn [block_lines]; destruct (map _ l); discriminate|exact E|rewrite Ht; exact I|]. rewrite Em. cbn [block_html]. unfold setext_level. destruct Hc as [-> | ->]; reflexivity.
Qed.
Lemma rule_renders l : rule_line l -> Forall clean_line (block_lines (Rule l)) -> renders (Rule l).
Proof.
  intros Hl Hp. destruct (rule_md false o 0 l Ho ltac:(lia) Hl) as [(dd & rd & E & _ & Ht) Em]. cbn [block_lines] in Hp. pose proof (Forall_inv (plain_eol _ Hp)) as He. cbn [repeat app] in E, Em.
  apply (closed_renders (Rule l) dd rd [] Hp); cbn [block_lines]; [discriminate|rewrite one_line by exact He; exact E|rewrite Ht; exact I|rewrite one_line_html by exact He; exact Em].
Qed.
Lemma closing_last s : closing_sequence s -> exists c, last_opt s = Some c /\ (c = 35%N \/ is_space c = true).
Proof.
  intros (w & n & w' & -> & _ & Hw). destruct w' as [|x w' _] using rev_ind.
  - exists 35%N. rewrite app_nil_r, last_opt_app by discriminate. replace (repeat 35%N (S n)) with (repeat 35%N n ++ [35%N]) by (rewrite <- repeat_cons; reflexivity). rewrite last_opt_app by discriminate. auto.
  - exists x. rewrite !app_assoc, last_opt_app by discriminate. split; [reflexivity|]. apply Forall_app in Hw as [_ Hw]. apply Forall_inv in Hw. right. destruct Hw as [-> | ->]; reflexivity.
Qed.
Lemma heading_renders n w l : leaf_ok is_space punctuation (Heading n w l) -> Forall clean_line (block_lines (Heading n w l)) -> renders (Heading n w l).
Proof.
  intros (Hn & Hw & Hok & Hends & Hne) Hp. cbn [block_lines] in Hp. set (s := w ++ phrase_text l) in *. set (ln := repeat 35%N n ++ u " " ++ s) in *. pose proof (Forall_inv (plain_eol _ Hp)) as He. pose proof (Forall_inv Hp) as (_ & H0 & _).
  assert (Ha : atx_line ln n s). { split; [exact Hn|]. exists (u " "). split; [reflexivity|]. split; [repeat constructor|]. split; [discriminate|]. intros x Hx. destruct (Hends x (or_introl Hx)) as [X _]. split; intros ->; discriminate X. }
  destruct (heading_doc false 0 ln n s ltac:(lia) He Ha) as (dd & hd & b & st & Hb & D1 & D2 & D3 & _ & D4 & E). rewrite replace_ascii in Hb by (intros X; apply H0; unfold ln; rewrite !in_app_iff; auto).
  assert (Eb : b = s).
  { assert (Hcl : forall p e, s = p ++ e -> ~ closing_sequence e). { intros p e Es Hcs. destruct (closing_last e Hcs) as (c & Hl & Hc). assert (e <> []) by (intros ->; discriminate). destruct (Hends c) as [H1 H2]; [right; rewrite Es, last_opt_app by assumption; exact Hl|]. destruct Hc; congruence. }
    destruct Hb as [[Hc _]|[(_ & x & e & Es & _ & Hc & _)|(_ & Hb & _)]]; [exfalso; apply (Hcl [] s eq_refl Hc)| |exact Hb]. exfalso. apply (Hcl (b ++ [x]) e); [rewrite Es, <- app_assoc; reflexivity|exact Hc]. }
  subst b. unfold parseInlines in E. rewrite strip_id in E by (intros c Hc; apply (Hends c); auto). rewrite D4 in E.
  destruct (phrase_loop o Ho Hsafe w l (ip_refmap st) Hw Hok) as (st' & ds' & ks' & n' & L1 & L2 & Sh). fold s in L1. cbn [repeat app] in E. rewrite L1 in E. cbn [bind] in E. rewrite L2 in E. cbn [bind] in E.
  apply (closed_renders (Heading n w l) dd hd (map snd ks') Hp); cbn [block_lines]; [discriminate|rewrite one_line by exact He; exact E|rewrite D2; exact I|]. rewrite one_line_html by exact He. unfold md_to_html. fold s. fold ln. rewrite E. cbn [bind block_html].
  apply heading_html; [exact Ho|exact D1|exact D2|exact D3|]. intros h Hh. destruct (Sh [hd; dd] h Hh) as (x & ->). exists x. rewrite Hh. reflexivity.
Qed.
Lemma text_replace ls : Forall clean_line ls -> flat_map (fun x => replace_char 0 65533 x ++ [10%N]) ls = text ls.
Proof. induction 1 as [|l ls (_ & H & _) _ IH]; [reflexivity|]. cbn [flat_map]. rewrite IH, replace_ascii by exact H. reflexivity. Qed.
Lemma code_lines_of ls : Forall clean_line ls -> Forall2 code_line (map (indent 4) ls) ls.
Proof.
  induction 1 as [|l ls _ _ IH]; [constructor|]. cbn [map]. constructor; [|exact IH]. unfold indent. destruct l as [|c l]; [right; split; [reflexivity|split; [constructor|vm_compute; lia]]|]. left. exists (repeat 32%N 4). split; [left; reflexivity|reflexivity].
Qed.
Lemma code_renders ls : hd [] ls <> [] -> last ls [] <> [] -> Forall clean_line ls -> renders (Indented ls).
Proof.
  intros Hh Hl Hp. assert (Hne : ls <> []) by (destruct ls; [cbn in Hh; congruence|discriminate]). assert (Hpi : Forall clean_line (map (indent 4) ls)) by (rewrite Forall_map; eapply Forall_impl; [|exact Hp]; intros; apply plain_indent; assumption).
  pose proof (code_lines_of ls Hp) as H2.
  assert (F1 : ~ blanks (hd [] ls)) by (destruct ls as [|l ls]; [congruence|]; cbn [hd] in *; intros X; apply Hh, plain_blank; [exact (Forall_inv Hp)|exact X]).
  assert (F2 : ~ blanks (last ls [])). { destruct (exists_last Hne) as (l0 & x & E). clear - Hl Hp E. subst ls. rewrite last_last in *. intros X. apply Hl, plain_blank; [apply Forall_app in Hp as [_ Hp]; exact (Forall_inv Hp)|exact X]. }
  assert (H2' : Forall2 code_line (map (indent 4) ls ++ [[]]) (ls ++ [[]])) by (apply Forall2_app; [exact H2|constructor; [right; split; [reflexivity|split; [constructor|vm_compute; lia]]|constructor]]).
  assert (He : Forall no_eol (map (indent 4) ls)) by apply plain_eol, Hpi.
  assert (He' : Forall no_eol (map (indent 4) ls ++ [[]])) by (apply Forall_app; split; [exact He|constructor; [intros x []|constructor]]).
  assert (T1 : Forall (Forall (fun x => x = 32%N)) [[]]) by (constructor; constructor).
  apply open_renders; cbn [block_lines]; [exact Hpi|destruct ls; [congruence|discriminate]| | |].
  - rewrite (indent_md false o _ ls ls [] Ho H2 He (eq_sym (app_nil_r ls)) Hne F1 F2 (Forall_nil _)), text_replace by exact Hp. reflexivity.
  - rewrite (indent_md false o _ _ ls [[]] Ho H2' He' eq_refl Hne F1 F2 T1), text_replace by exact Hp. reflexivity.
  - destruct (indent_tree false _ _ ls [[]] H2' He' eq_refl Hne F1 F2 T1) as (dd & cd & E & _ & C1 & _ & C2 & _). exists dd, [T cd []]. split; [exact E|]. cbn [last_opt]. left. unfold t_type. cbn [t_data]. auto.
Qed.
Lemma fence_renders c n ls : fence_char c -> 3 <= n -> Forall (fun l => ~ closes_fence c n l) ls -> Forall clean_line (block_lines (Fenced c n ls)) -> renders (Fenced c n ls).
Proof.
  intros Hc Hn Hcl Hp rest R Hr Hpr ER. cbn [block_lines] in *. assert (Hpl : Forall clean_line ls) by (apply Forall_inv_tail in Hp; apply Forall_app in Hp; apply Hp).
  pose proof (fence_then false o 0 c n ls (repeat c n) (text rest) Ho (text_code rest Hpr) (plain_code ls Hpl) ltac:(lia) Hc Hn (plain_eol ls Hpl) Hcl) as E. cbn [repeat app] in E.
  rewrite text_app. cbn [app]. rewrite E; [rewrite ER; cbn [bind block_html]; rewrite <- (text_replace ls Hpl); reflexivity|exists 0, n, 0; split; [lia|split; [lia|rewrite app_nil_r; reflexivity]]].
Qed.
Lemma html_renders ls : opens_html (hd [] ls) -> ~ In [] ls -> Forall clean_line ls -> renders (Html ls).
Proof.
  intros Hh Hn Hp rest R Hr Hpr ER. cbn [block_lines block_html]. destruct ls as [|l ls]; [destruct Hh as (? & ? & ? & E & _); destruct x; discriminate|]. cbn [hd] in Hh.
  assert (Hb : Forall (fun x => ~ blanks x) ls). { apply Forall_inv_tail in Hp. rewrite Forall_forall in *. intros x Hx X. apply Hn. right. rewrite <- (plain_blank x (Hp x Hx) X). exact Hx. }
  assert (Eo : html_out o (l :: ls) = text (l :: ls)) by (unfold html_out; rewrite Hsafe; apply text_replace, Hp).
  destruct Hr as [->|(r & -> & _)].
  - rewrite app_nil_r. rewrite md_nil in ER. injection ER as <-. pose proof (html_end false o 0 l ls Ho ltac:(lia) Hh (plain_eol _ Hp) Hb) as E. cbn [repeat app] in E. rewrite E, Eo, app_nil_r. reflexivity.
  - apply Forall_inv_tail in Hpr. rewrite md_blank in ER by exact Hpr. pose proof (html_then false o 0 l ls [] (text r) Ho (text_code r Hpr) (plain_code _ Hp) ltac:(lia) Hh (plain_eol _ Hp) Hb (Forall_nil _)) as E. cbn [repeat] in E.
    replace (text ((l :: ls) ++ [] :: r)) with (text (([] ++ l) :: ls ++ [[]]) ++ text r) by (rewrite <- text_app; cbn [app]; rewrite <- app_assoc; reflexivity). rewrite E, ER. cbn [bind app]. rewrite Eo. reflexivity.
Qed.

(** *** Lists of one-line items *)
Section Runs.
Variables i i' : li.
Hypothesis (Hm : li_mark i = li_mark i') (Hw : li_words i = li_words i').
Definition ends_like (r r' : list li) : Prop := r = r' \/ exists q, r = q ++ [i] /\ r' = q ++ [i'].
Lemma runs_like l : Forall2 ends_like (runs (l ++ [i])) (runs (l ++ [i'])).
Proof.
  induction l as [|x l IH]; [cbn; constructor; [right; exists []; auto|constructor]|]. cbn [app runs]. inversion IH as [|r r' rs rs' Hr Hrs E E']; [constructor; [left; reflexivity|constructor]|].
  destruct r as [|j r], r' as [|j' r'].
  - constructor; [left; reflexivity|]. constructor; assumption.
  - destruct Hr as [Hr|([|? q] & Hr & _)]; discriminate.
  - destruct Hr as [Hr|([|? q] & _ & Hr)]; discriminate.
  - assert (Ej : li_mark j = li_mark j'). { destruct Hr as [Hr|([|y q] & H1 & H2)]; [injection Hr as -> _; reflexivity|injection H1 as -> _; injection H2 as -> _; exact Hm|injection H1 as -> _; injection H2 as -> _; reflexivity]. }
    rewrite Ej. destruct (same_kind _ _); [|constructor; [left; reflexivity|constructor; assumption]]. constructor; [|exact Hrs]. destruct Hr as [Hr|(q & H1 & H2)]; [left; rewrite Hr; reflexivity|right; exists (x :: q); cbn [app]; rewrite <- H1, <- H2; auto].
Qed.
Lemma run_like r r' : ends_like r r' -> run_html r = run_html r'.
Proof.
  intros [->|(q & -> & ->)]; [reflexivity|]. assert (El : loose (q ++ [i]) = loose (q ++ [i'])) by (unfold loose; rewrite !removelast_last; reflexivity).
  assert (Ef : forall b, flat_map (li_html b) (q ++ [i]) = flat_map (li_html b) (q ++ [i'])) by (intros b; rewrite !flat_map_app; cbn [flat_map]; unfold li_html; rewrite Hw; reflexivity).
  unfold run_html. destruct q as [|y q]; cbn [app]; [rewrite Hm; change [i] with ([] ++ [i]); change [i'] with ([] ++ [i']); rewrite El, Ef; reflexivity|]. change (y :: q ++ [i]) with ((y :: q) ++ [i]). change (y :: q ++ [i']) with ((y :: q) ++ [i']). rewrite El, Ef. reflexivity.
Qed.
Lemma lists_like l : flat_map run_html (runs (l ++ [i])) = flat_map run_html (runs (l ++ [i'])).
Proof. induction (runs_like l) as [|r r' rs rs' Hr _ IH]; [reflexivity|]. cbn [flat_map]. rewrite (run_like r r' Hr), IH. reflexivity. Qed.
End Runs.
Lemma items_text l : text (flat_map (fun i => li_line i :: li_blanks i) l) = flat_map li_text l.
Proof. induction l as [|i l IH]; [reflexivity|]. cbn [flat_map]. rewrite text_app, IH. unfold li_text. cbn [flat_map]. rewrite <- !app_assoc. reflexivity. Qed.
Lemma items_renders l : l <> [] -> Forall li_ok l -> (forall i, last_opt l = Some i -> li_blanks i = []) -> Forall clean_line (block_lines (Items l)) -> renders (Items l).
Proof.
  intros Hne Hl Hlast Hp. destruct (exists_last Hne) as (l0 & i & ->). specialize (Hlast i ltac:(rewrite last_opt_app by discriminate; reflexivity)).
  set (i' := LI (li_indent i) (li_mark i) (li_gap i) (li_words i) [[]]).
  assert (Hl' : Forall li_ok (l0 ++ [i'])). { apply Forall_app in Hl as [H1 H2]. apply Forall_app. split; [exact H1|]. apply Forall_inv in H2. constructor; [|constructor]. destruct H2 as (A1 & A2 & A3 & A4 & A5 & A6 & _). repeat (split; [assumption|]). constructor; constructor. }
  assert (E' : text (block_lines (Items (l0 ++ [i])) ++ [[]]) = flat_map li_text (l0 ++ [i'])).
  { rewrite <- items_text. f_equal. cbn [block_lines]. rewrite !flat_map_app. cbn [flat_map]. rewrite Hlast, !app_nil_r, <- app_assoc. reflexivity. }
  assert (Hne' : l0 ++ [i'] <> []) by (destruct l0; discriminate).
  destruct (lists_both o _ Ho Hne Hl) as [_ M]. destruct (lists_both o _ Ho Hne' Hl') as [(dd & k & E & Hk) M'].
  apply open_renders; [exact Hp|cbn [block_lines]; rewrite flat_map_app; cbn [flat_map]; destruct (flat_map _ l0); discriminate| | |].
  - cbn [block_lines block_html]. rewrite items_text. exact M.
  - rewrite E', M'. cbn [block_html]. f_equal. symmetry. apply lists_like; reflexivity.
  - rewrite E'. exists dd, k. split; [exact E|]. destruct (last_opt k) as [t|] eqn:El; [|exact I]. right. split; [|intros l H; exact H]. rewrite Forall_forall in Hk. apply Hk. destruct k as [|a k] using rev_ind; [discriminate|]. rewrite last_opt_app in El by discriminate. injection El as <-. apply in_or_app. right. left. reflexivity.
Qed.

(** *** Blocks one after the other *)
Definition lines_of (bs : list block) : list str := apart (map block_lines bs).
Lemma hd_apart x ls : x <> [] -> hd [] (apart (x :: ls)) = hd [] x.
Proof. intros H. cbn [apart]. destruct ls; [reflexivity|]. destruct x; [congruence|reflexivity]. Qed.
Lemma apart_ne x ls : x <> [] -> apart (x :: ls) <> [].
Proof. intros H. cbn [apart]. destruct ls; [exact H|]. destruct x; [congruence|discriminate]. Qed.
Lemma doc_renders bs : Forall (fun b => renders b /\ Forall clean_line (block_lines b) /\ block_lines b <> []) bs -> in_order bs ->
  forall e, e = [] \/ e = [[]] -> md (text (lines_of bs ++ e)) = Ok (doc_html (ho_softbreak o) bs).
Proof.
  intros H. induction H as [|b bs (Hb & Hp & Hne) Hbs IH]; intros Ho' e He; [cbn; destruct He as [->| ->]; [exact md_nil|exact md_nil1]|].
  assert (Hpe : Forall clean_line e) by (destruct He as [->| ->]; [constructor|constructor; [exact plain_nil|constructor]]).
  assert (Ee : md (text e) = Ok []) by (destruct He as [->| ->]; [exact md_nil|exact md_nil1]). unfold lines_of. cbn [map apart doc_html flat_map]. destruct bs as [|b' bs].
  - cbn [map flat_map]. apply Hb; [|exact Hpe|exact Ee]. destruct He as [->| ->]; [left; reflexivity|right; exists []; auto].
  - cbn [map]. rewrite <- app_assoc. change (([] :: apart (block_lines b' :: map block_lines bs)) ++ e) with ([] :: lines_of (b' :: bs) ++ e). destruct Ho' as [Hf Ho'].
    assert (Hpl : Forall clean_line (lines_of (b' :: bs) ++ e)). { apply Forall_app. split; [|exact Hpe]. apply plain_apart, Forall_map. eapply Forall_impl; [|exact Hbs]. intros x X. apply X. }
    apply Hb; [|constructor; [exact plain_nil|exact Hpl]|rewrite md_blank by exact Hpl; apply IH; assumption]. right. exists (lines_of (b' :: bs) ++ e). split; [reflexivity|]. right.
    destruct (Forall_inv Hbs) as (_ & _ & Hne'). unfold lines_of. cbn [map]. pose proof (apart_ne (block_lines b') (map block_lines bs) Hne') as Hn. pose proof (hd_apart (block_lines b') (map block_lines bs) Hne') as Eh. destruct (apart (block_lines b' :: map block_lines bs)) as [|x y]; [congruence|]. cbn [hd app] in *. rewrite Eh. exact Hf.
Qed.

(** *** Blocks inside blocks *)
Lemma quote_flat ls : flat_map (fun l => u "> " ++ l ++ [10%N]) ls = text (map (fun l => u "> " ++ l) ls).
Proof. induction ls as [|x l IH]; [reflexivity|]. cbn [flat_map map]. rewrite IH, <- !app_assoc. reflexivity. Qed.
Lemma quote_renders bs : lines_of bs <> [] -> Forall clean_line (lines_of bs) -> Forall clean_line (block_lines (Quote bs)) ->
  md (text (lines_of bs)) = Ok (doc_html (ho_softbreak o) bs) -> renders (Quote bs).
Proof.
  intros Hne Hl Hp M. assert (Eq : quote_text (text (lines_of bs)) = text (block_lines (Quote bs))).
  { unfold quote_text. rewrite (text_lines_lines _ (plain_eol _ Hl) Hne). cbn [block_lines]. apply quote_flat. }
  assert (Ht : ~ In TAB (text (lines_of bs))). { intros X. apply text_in in X as [X|(l & Hi & X)]; [discriminate|]. rewrite Forall_forall in Hl. destruct (Hl l Hi) as (_ & _ & _ & H9 & _). contradiction. }
  pose proof (quoted_doc false _ (text_code _ Hl) Ht) as D. pose proof (quoted_html false o _ Ho (text_code _ Hl) Ht) as E. rewrite M in E. cbn [bind] in E. unfold md_to_html in M. rewrite Eq in D, E.
  destruct (parse_doc false (text (lines_of bs))) as [[d k]|x]; [|discriminate M]. destruct D as (e & b & k' & D & _ & _ & Eb & _).
  apply (closed_renders (Quote bs) e b k' Hp); [cbn [block_lines]; fold (lines_of bs); destruct (lines_of bs); [congruence|discriminate]|exact D|rewrite Eb; exact I|exact E].
Qed.
Lemma item_renders i bs : li_ok i -> li_blanks i = [[]] -> clean_line (li_line i) -> lines_of bs <> [] -> Forall clean_line (lines_of bs) -> Forall clean_line (block_lines (Item i bs)) ->
  (forall e, e = [] \/ e = [[]] -> md (text (lines_of bs ++ e)) = Ok (doc_html (ho_softbreak o) bs)) -> renders (Item i bs).
Proof.
  intros Hi Hb Hc Hne Hl Hp M.
  assert (Hcp : Forall code_point (li_words i)). { destruct Hc as (Hc & _). unfold li_line in Hc. rewrite !Forall_app in Hc. apply Hc. }
  assert (Hbn : li_blanks i <> []) by (rewrite Hb; discriminate).
  assert (Et : forall e, text (block_lines (Item i bs) ++ e) = li_text i ++ text (map (indent (li_width i)) (lines_of bs) ++ e)).
  { intros e. cbn [block_lines]. fold (lines_of bs). unfold li_text. rewrite Hb. cbn [flat_map app]. rewrite <- !app_assoc. reflexivity. }
  assert (G : forall e, e = [] \/ e = [[]] -> md (text (block_lines (Item i bs) ++ e)) = Ok (block_html (ho_softbreak o) (Item i bs)) /\ exists dd l k, parse_doc false (text (block_lines (Item i bs) ++ e)) = Ok (T dd [T l k]) /\ n_t l = list_).
  { intros e He. set (s := text (lines_of bs ++ e)). set (t := text (map (indent (li_width i)) (lines_of bs) ++ e)).
    assert (Hpe : Forall clean_line e) by (destruct He as [->| ->]; [constructor|constructor; [exact plain_nil|constructor]]).
    assert (Hle : Forall clean_line (lines_of bs ++ e)) by (apply Forall_app; auto).
    assert (Hme : Forall clean_line (map (indent (li_width i)) (lines_of bs) ++ e)) by (apply Forall_app; split; [apply Forall_map; eapply Forall_impl; [|exact Hl]; intros; apply plain_indent; assumption|exact Hpe]).
    assert (Hs : plain_spaces s). { split; [intros X; apply text_in in X as [X|(l & Hx & X)]; [discriminate|]; rewrite Forall_forall in Hle; destruct (Hle l Hx) as (_ & _ & _ & H9 & _); contradiction|]. intros l Hx. unfold s in Hx. rewrite (text_lines_text _ (plain_eol _ Hle)) in Hx. destruct (is_nil _); [destruct Hx as [<-|[]]; reflexivity|]. rewrite Forall_forall in Hle. apply (Hle l Hx). }
    assert (Hin : indented_text (li_width i) s t). { unfold indented_text, s, t. rewrite !text_lines_lines; try (apply plain_eol; assumption); try (destruct (lines_of bs); [congruence|discriminate]). apply Forall2_app.
      - clear. induction (lines_of bs) as [|x l IH]; [constructor|]. cbn [map]. constructor; [|exact IH]. unfold indent. destruct x; [right; split; [reflexivity|exists 0; reflexivity]|left; reflexivity].
      - destruct He as [->| ->]; [constructor|constructor; [right; split; [reflexivity|exists 0; reflexivity]|constructor]]. }
    assert (Htn : t <> []). { unfold t. destruct (lines_of bs) as [|x l]; [congruence|]. cbn [map app flat_map]. destruct (indent _ x); discriminate. }
    rewrite Et. fold t. split.
    - rewrite (item_html_doc o i s t Ho Hi Hbn Hcp (text_code _ Hle) Hs Hin Htn). unfold s. rewrite (M e He). reflexivity.
    - pose proof (item_tree i s t Hi Hbn Hcp (text_code _ Hle) Hs Hin Htn) as D. specialize (M e He). unfold md_to_html in M. fold s in M. destruct (parse_doc false s) as [[d k]|x]; [|discriminate M].
      destruct D as (dd & l & it & pd & ws & kb & D & _ & _ & El & _). exists dd, l, [T it (T pd ws :: kb)]. auto. }
  apply open_renders; [exact Hp|cbn [block_lines]; discriminate| | |].
  - rewrite <- (app_nil_r (block_lines _)). apply G. auto.
  - apply G. auto.
  - destruct (G [[]] (or_intror eq_refl)) as [_ (dd & l & k & D & El)]. exists dd, [T l k]. split; [exact D|]. cbn [last_opt]. right. unfold t_type. cbn [t_data]. auto.
Qed.

Definition entry_of (e : list str) (x : li * list block) : entry :=
  Entry (fst x) (text (lines_of (snd x) ++ e)) (text (map (indent (li_width (fst x))) (lines_of (snd x)) ++ e)).
Fixpoint entries_of (e : list str) (l : list (li * list block)) : list entry :=
  match l with [] => [] | [x] => [entry_of e x] | x :: r => entry_of [[]] x :: entries_of e r end.
Definition item_lines (x : li * list block) : list str := li_line (fst x) :: [] :: map (indent (li_width (fst x))) (lines_of (snd x)).
Lemma entries_lines l : block_lines (Entries l) = apart (map item_lines l).
Proof. cbn [block_lines]. f_equal. apply map_ext. intros [i bs]. reflexivity. Qed.
Definition held_ok (x : li * list block) : Prop :=
  li_ok (fst x) /\ li_blanks (fst x) = [[]] /\ clean_line (li_line (fst x)) /\ lines_of (snd x) <> [] /\ Forall clean_line (lines_of (snd x)) /\
  (forall e, e = [] \/ e = [[]] -> md (text (lines_of (snd x) ++ e)) = Ok (doc_html (ho_softbreak o) (snd x))).
Lemma entry_of_ok e x : e = [] \/ e = [[]] -> held_ok x -> entry_ok (entry_of e x) /\ entry_source (entry_of e x) = text (item_lines x ++ e).
Proof.
  destruct x as [i bs]. intros He (Hi & Hb & Hc & Hne & Hl & M). cbn [fst snd] in *. unfold entry_of, entry_ok, entry_source. cbn [en_item en_text en_under fst snd].
  assert (Hcp : Forall code_point (li_words i)). { destruct Hc as (Hc & _). unfold li_line in Hc. rewrite !Forall_app in Hc. apply Hc. }
  assert (Hpe : Forall clean_line e) by (destruct He as [->| ->]; [constructor|constructor; [exact plain_nil|constructor]]).
  assert (Hle : Forall clean_line (lines_of bs ++ e)) by (apply Forall_app; auto).
  assert (Hme : Forall clean_line (map (indent (li_width i)) (lines_of bs) ++ e)) by (apply Forall_app; split; [apply Forall_map; eapply Forall_impl; [|exact Hl]; intros; apply plain_indent; assumption|exact Hpe]).
  split.
  - split; [exact Hi|]. split; [rewrite Hb; discriminate|]. split; [exact Hcp|]. split; [apply text_code, Hle|].
    split. { split; [intros X; apply text_in in X as [X|(l & Hx & X)]; [discriminate|]; rewrite Forall_forall in Hle; destruct (Hle l Hx) as (_ & _ & _ & H9 & _); contradiction|]. intros l Hx. rewrite (text_lines_text _ (plain_eol _ Hle)) in Hx. destruct (is_nil _); [destruct Hx as [<-|[]]; reflexivity|]. rewrite Forall_forall in Hle. apply (Hle l Hx). }
    split; [exact (text_without _ Hle)|]. split; [|apply text_last; destruct (lines_of bs); [congruence|discriminate]].
    unfold indented_text. rewrite !text_lines_lines; try (apply plain_eol; assumption); try (destruct (lines_of bs); [congruence|discriminate]). apply Forall2_app.
    + clear. induction (lines_of bs) as [|x l IH]; [constructor|]. cbn [map]. constructor; [|exact IH]. unfold indent. destruct x; [right; split; [reflexivity|exists 0; reflexivity]|left; reflexivity].
    + destruct He as [->| ->]; [constructor|constructor; [right; split; [reflexivity|exists 0; reflexivity]|constructor]].
  - unfold item_lines. cbn [fst snd]. unfold li_text. rewrite Hb. cbn [flat_map app]. rewrite <- !app_assoc. reflexivity.
Qed.
Lemma entries_of_ok e l : e = [] \/ e = [[]] -> Forall held_ok l -> Forall entry_ok (entries_of e l) /\ (l <> [] -> flat_map entry_source (entries_of e l) = text (apart (map item_lines l) ++ e)).
Proof.
  intros He. induction 1 as [|x l Hx Hl IH]; [split; [constructor|congruence]|]. cbn [entries_of]. destruct l as [|y l].
  - destruct (entry_of_ok e x He Hx) as [G1 G2]. split; [constructor; [exact G1|constructor]|]. intros _. cbn [flat_map map apart]. rewrite app_nil_r. exact G2.
  - destruct IH as [I1 I2]. destruct (entry_of_ok [[]] x (or_intror eq_refl) Hx) as [G1 G2]. split; [constructor; assumption|]. intros _. cbn [flat_map]. rewrite G2, (I2 ltac:(discriminate)). 
    change (apart (map item_lines (x :: y :: l))) with (item_lines x ++ [[]] ++ apart (map item_lines (y :: l))). rewrite app_assoc, <- app_assoc, (text_app (_ ++ _)). reflexivity.
Qed.
Lemma entries_of_items e : forall l, map en_item (entries_of e l) = map fst l.
Proof. induction l as [|x l IH]; [reflexivity|]. cbn [entries_of]. destruct l as [|y l]; [reflexivity|]. cbn [map] in *. rewrite IH. reflexivity. Qed.
Lemma entries_of_htmls e l : e = [] \/ e = [[]] -> Forall held_ok l -> Forall2 (fun y h => md (en_text y) = Ok h) (entries_of e l) (map (fun x => doc_html (ho_softbreak o) (snd x)) l).
Proof.
  intros He. induction 1 as [|x l Hx Hl IH]; [constructor|]. cbn [entries_of]. destruct Hx as (_ & _ & _ & _ & _ & M). destruct l as [|y l]; [constructor; [apply M, He|constructor]|]. constructor; [apply M; auto|exact IH].
Qed.
Lemma entries_html_of e : forall l, entries_html (entries_of e l) (map (fun x => doc_html (ho_softbreak o) (snd x)) l) =
  flat_map (fun '(j, bs) => u "<li>" ++ [10%N] ++ u "<p>" ++ html_text (li_words j) ++ u "</p>" ++ [10%N] ++ flat_map (block_html (ho_softbreak o)) bs ++ u "</li>" ++ [10%N]) l.
Proof.
  induction l as [|[i bs] l IH]; [reflexivity|]. cbn [entries_of]. destruct l as [|y l]; [cbn [map entries_html flat_map]; reflexivity|]. cbn [map entries_html flat_map] in *. rewrite IH. reflexivity.
Qed.
Lemma entries_renders l : 2 <= length l -> (forall x y, In x l -> In y l -> same_kind (li_mark (fst x)) (li_mark (fst y)) = true) -> Forall held_ok l -> Forall clean_line (block_lines (Entries l)) -> renders (Entries l).
Proof.
  intros H2 Hk Hl Hp.
  assert (Hne : block_lines (Entries l) <> []). { rewrite entries_lines. destruct l as [|x l]; [cbn in H2; lia|]. cbn [map apart]. destruct (map item_lines l); discriminate. }
  assert (G : forall e, e = [] \/ e = [[]] -> md (text (block_lines (Entries l) ++ e)) = Ok (block_html (ho_softbreak o) (Entries l)) /\ exists dd d k, parse_doc false (text (block_lines (Entries l) ++ e)) = Ok (T dd [T d k]) /\ n_t d = list_).
  { intros e He. destruct (entries_of_ok e l He Hl) as [G1 G2]. pose proof (entries_of_htmls e l He Hl) as G3. pose proof (entries_html_of e l) as G5.
    rewrite entries_lines, <- G2 by (intros ->; cbn in H2; lia). clear G2. destruct l as [|x [|y l]]; [cbn in H2; lia|cbn in H2; lia|].
    change (entries_of e (x :: y :: l)) with (entry_of [[]] x :: entries_of e (y :: l)) in *.
    assert (Hmb : Forall (fun z => same_kind (li_mark (en_item (entry_of [[]] x))) (li_mark (en_item z)) = true) (entries_of e (y :: l))).
    { apply Forall_forall. intros z Hz. apply (in_map en_item) in Hz. rewrite (entries_of_items e (y :: l)) in Hz. apply in_map_iff in Hz as (w & E & Hw). cbn [entry_of en_item]. rewrite <- E. apply Hk; [left; reflexivity|right; exact Hw]. }
    destruct (many_both o (entry_of [[]] x) (entries_of e (y :: l)) _ Ho ltac:(destruct l; discriminate) G1 Hmb G3) as [E1 E2]. split; [|exact E1]. rewrite E2, G5. destruct x as [i bs]. reflexivity. }
  apply open_renders; [exact Hp|exact Hne| | |].
  - rewrite <- (app_nil_r (block_lines _)). apply G. auto.
  - apply G. auto.
  - destruct (G [[]] (or_intror eq_refl)) as [_ (dd & d & k & D & El)]. exists dd, [T d k]. split; [exact D|]. cbn [last_opt]. right. unfold t_type. cbn [t_data]. auto.
Qed.

(** ** Every block of the grammar *)
Section Ind.
Variable P : block -> Prop.
Definition inside (b : block) : Prop := match b with Quote bs => Forall P bs | Item _ bs => Forall P bs | Entries l => Forall (fun x => Forall P (snd x)) l | _ => True end.
Hypothesis H : forall b, inside b -> P b.
Fixpoint block_all (b : block) : P b :=
  let all := fix all (l : list block) : Forall P l := match l with [] => Forall_nil P | x :: r => Forall_cons x (block_all x) (all r) end in
  let entries := fix entries (l : list (li * list block)) : Forall (fun x => Forall P (snd x)) l :=
    match l with [] => Forall_nil _ | (i, bs) :: r => Forall_cons (i, bs) (all bs : Forall P (snd (i, bs))) (entries r) end in
  H b (match b as b0 return inside b0 with Quote bs => all bs | Item _ bs => all bs | Entries l => entries l | _ => I end).
End Ind.
Notation ok := (block_ok is_space punctuation).
Lemma ok_all (l : list block) : (fix all l := match l with [] => True | x :: r => ok x /\ all r end) l -> Forall ok l.
Proof. induction l as [|x l IH]; [constructor|]. intros [H1 H2]. constructor; auto. Qed.
Lemma block_renders : forall b, ok b -> renders b /\ Forall clean_line (block_lines b) /\ block_lines b <> [].
Proof.
  apply (block_all (fun b => ok b -> renders b /\ Forall clean_line (block_lines b) /\ block_lines b <> [])). intros b IH Hok. assert (Hsub : forall bs, bs <> [] -> Forall (fun b => ok b -> renders b /\ Forall clean_line (block_lines b) /\ block_lines b <> []) bs ->
    (fix all l := match l with [] => True | x :: r => ok x /\ all r end) bs -> Forall (fun b => renders b /\ Forall clean_line (block_lines b) /\ block_lines b <> []) bs /\ Forall clean_line (lines_of bs) /\ lines_of bs <> []).
  { intros bs Hne G Hall. apply ok_all in Hall. assert (G' : Forall (fun b => renders b /\ Forall clean_line (block_lines b) /\ block_lines b <> []) bs) by (rewrite Forall_forall in *; intros x Hx; apply (G x Hx), (Hall x Hx)).
    split; [exact G'|]. split; [apply plain_apart, Forall_map; eapply Forall_impl; [|exact G']; intros x X; apply X|]. destruct bs as [|b0 bs]; [congruence|]. unfold lines_of. cbn [map]. apply apart_ne, (Forall_inv G'). }
  destruct b as [w l|l|n w l|c n l|l|ls|c n ls|ls|l|bs|i bs|l]; cbn [block_ok leaf_ok leaf_lines] in Hok; destruct Hok as (Hlf & Hcl & Hk).
  - split; [apply phrase_renders; assumption|]. split; [exact Hcl|discriminate].
  - split; [apply lines_renders; assumption|]. split; [exact Hcl|]. cbn [block_lines]. destruct l; [destruct Hlf|discriminate].
  - split; [apply heading_renders; assumption|]. split; [exact Hcl|discriminate].
  - destruct Hlf as (H1 & H2 & H3). split; [apply under_renders; assumption|]. split; [exact Hcl|]. cbn [block_lines]. destruct (map _ l); discriminate.
  - split; [apply rule_renders; assumption|]. split; [exact Hcl|discriminate].
  - destruct Hlf as (H1 & H2). split; [apply code_renders; assumption|]. split; [cbn [block_lines]; apply Forall_map; eapply Forall_impl; [|exact Hcl]; intros; apply plain_indent; assumption|]. cbn [block_lines]. destruct ls; [cbn in H1; congruence|discriminate].
  - destruct Hlf as (H1 & H2 & H3). split; [apply fence_renders; assumption|]. split; [exact Hcl|discriminate].
  - destruct Hlf as (H1 & H2). split; [apply html_renders; assumption|]. split; [exact Hcl|]. cbn [block_lines]. intros ->. destruct H1 as (a & ? & ? & E & _). destruct a; discriminate.
  - destruct Hlf as (H1 & H2 & H3). split; [apply items_renders; assumption|]. split; [exact Hcl|]. cbn [block_lines]. destruct l; [congruence|discriminate].
  - destruct Hk as (Hne & Hall & Hord). destruct (Hsub bs Hne IH Hall) as (G & G2 & G3). assert (Hp : Forall clean_line (block_lines (Quote bs))).
    { cbn [block_lines]. fold (lines_of bs). apply Forall_map. eapply Forall_impl; [|exact G2]. intros x X. apply plain_before; [intros c [<-|[<-|[]]]; auto|exact X|right; left; reflexivity]. }
    split; [|split; [exact Hp|cbn [block_lines]; fold (lines_of bs); destruct (lines_of bs); [congruence|discriminate]]]. apply quote_renders; try assumption. rewrite <- (app_nil_r (lines_of bs)). apply doc_renders; auto.
  - destruct Hk as (Hne & Hall & Hord). destruct (Hsub bs Hne IH Hall) as (G & G2 & G3). destruct Hlf as (H1 & H2). apply Forall_inv in Hcl. assert (Hp : Forall clean_line (block_lines (Item i bs))).
    { cbn [block_lines]. fold (lines_of bs). constructor; [exact Hcl|]. constructor; [exact plain_nil|]. apply Forall_map. eapply Forall_impl; [|exact G2]. intros; apply plain_indent; assumption. }
    split; [|split; [exact Hp|discriminate]]. apply item_renders; try assumption. apply doc_renders; assumption.
  - destruct Hlf as (H1 & H2 & H3). assert (Hheld : Forall held_ok l).
    { clear H1 H3. cbn [inside] in IH. revert Hcl H2 Hk. induction IH as [|[i bs] l Hx _ IHl]; intros Hcl H2 Hk; [constructor|]. cbn [map] in Hcl. inversion Hcl as [|? ? C1 C2]; subst. inversion H2 as [|? ? D1 D2]; subst. destruct Hk as [(Hne & Hall & Hord) Hk].
      constructor; [|apply IHl; assumption]. destruct (Hsub bs Hne Hx Hall) as (G & G2 & G3). unfold held_ok. cbn [fst snd] in *. split; [apply D1|]. split; [apply D1|]. split; [exact C1|]. split; [exact G3|]. split; [exact G2|]. apply doc_renders; assumption. }
    assert (Hp : Forall clean_line (block_lines (Entries l))).
    { rewrite entries_lines. apply plain_apart, Forall_map. eapply Forall_impl; [|exact Hheld]. intros [i bs] (_ & _ & C1 & _ & C2 & _). unfold item_lines. cbn [fst snd] in *. constructor; [exact C1|]. constructor; [exact plain_nil|]. apply Forall_map. eapply Forall_impl; [|exact C2]. intros; apply plain_indent; assumption. }
    split; [apply entries_renders; assumption|]. split; [exact Hp|]. rewrite entries_lines. destruct l as [|x l]; [cbn in H1; lia|]. cbn [map apart]. destruct (map item_lines l); discriminate.
Qed.
Theorem documents bs : doc_ok is_space punctuation bs -> md (doc_text bs) = Ok (doc_html (ho_softbreak o) bs).
Proof.
  intros (Hne & Hall & Hord). change (doc_text bs) with (text (lines_of bs)). rewrite <- (app_nil_r (lines_of bs)). apply doc_renders; [|exact Hord|auto]. eapply Forall_impl; [|exact Hall]. intros b Hb. apply block_renders, Hb.
Qed.
End Opts.

(** ** A decider for clean lines *)
Fixpoint no_markb (l : str) : bool :=
  match l with
  | [] => true
  | c :: r => negb (N.eqb c 93 && match r with d :: _ => N.eqb d 58 | [] => false end) && no_markb r
  end.
Lemma no_markb_ok l : no_markb l = true -> without (u "]:") l.
Proof.
  induction l as [|c l IH]; intros H p q E; [destruct p; discriminate|]. cbn [no_markb] in H. apply andb_prop in H as [H1 H2]. change (u "]:") with [93; 58]%N in *. destruct p as [|x p].
  - injection E as -> ->. discriminate H1.
  - injection E as -> E. apply (IH H2 p q E).
Qed.
Definition clean_lineb (l : str) : bool :=
  forallb (fun c => N.ltb c 1114112 && negb (existsb (N.eqb c) [0; 9; 10; 13]%N)) l && (is_nil l || existsb (fun c => negb (N.eqb c 32)) l) && no_markb l.
Lemma clean_lineb_ok l : clean_lineb l = true -> clean_line l.
Proof.
  unfold clean_lineb. intros H. apply andb_prop in H as [H H3]. apply andb_prop in H as [H1 H2]. rewrite forallb_forall in H1.
  assert (G : forall c, In c l -> (c < 1114112)%N /\ c <> 0%N /\ c <> 9%N /\ c <> 10%N /\ c <> 13%N) by (intros c Hc; specialize (H1 c Hc); cbn [existsb] in H1; lia).
  split; [apply Forall_forall; intros c Hc; apply G in Hc; unfold code_point; lia|]. split; [intros X; apply G in X; lia|]. split; [intros c X; apply G in X; lia|]. split; [intros X; apply G in X; lia|]. split; [|apply no_markb_ok, H3].
  intros X. destruct l as [|c l]; [reflexivity|]. cbn [is_nil orb] in H2. apply existsb_exists in H2 as (y & Hy & E). rewrite (X y Hy) in E. discriminate.
Qed.
Lemma clean_linesb_ok ls : forallb clean_lineb ls = true -> Forall clean_line ls.
Proof. intros H. rewrite forallb_forall in H. apply Forall_forall. intros x Hx. apply clean_lineb_ok, H, Hx. Qed.
