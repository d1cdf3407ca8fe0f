(** * Texts behind closed blocks *)
From Verif Require Import Base Regex Entities Common NormRef Node Inlines Blocks Html Rst Dump Main RegexFacts StrFacts Spec SpecTree SpecSame SpecLines
  TreeFacts HtmlFacts RenderFacts BlockFacts BlockInv BlockRun LineFacts ParseFacts Sim SimFacts SameHtml.
From Coq Require Import ZifyBool ZifyNat ZifyN.

(** ** The blocks before the text; a blank line behind the last one marks it *)
Definition as_before (k a : list tree) : Prop := a = k \/ a = mark_last_blank k.
Lemma mark_twice k : mark_last_blank (mark_last_blank k) = mark_last_blank k.
Proof.
  destruct k as [|[d kk] k _] using rev_ind; [reflexivity|]. rewrite mark_last_blank_snoc, mark_last_blank_snoc. reflexivity.
Qed.
Lemma as_before_blank k a : as_before k a -> as_before k (mark_last_blank a).
Proof. intros [-> | ->]; right; [reflexivity|apply mark_twice]. Qed.
Lemma as_before_krel dl dc Rl k : krel dl dc Rl (as_before k) [] k.
Proof. exists k, []. rewrite app_nil_r. split; [reflexivity|]. split; [left; reflexivity|constructor]. Qed.

Lemma incorporate_app : forall ls ls' p, incorporate_lines (ls ++ ls') p = let* q := incorporate_lines ls p in incorporate_lines ls' q.
Proof. induction ls as [|a ls IH]; intros ls' p; [reflexivity|]. cbn [app incorporate_lines]. destruct (incorporate_line a p); [apply IH|reflexivity]. Qed.
Lemma after_blocks Post smart s ls0 s' q d0 k0 :
  (forall a s, as_before k0 a -> exists a' s', process_all a s = Ok (a', s') /\ same_ip s s' /\ Post a') ->
  Forall code_point s -> Forall code_point s' -> text_lines s' = ls0 ++ text_lines s ->
  incorporate_lines ls0 (reset (new_parser smart)) = Ok q -> p_stack q = [F d0 k0] -> n_t d0 = document -> n_sourcepos d0 <> None -> n_string_content d0 = Some [] ->
  p_line_number q = length ls0 -> p_refmap q = [] -> p_smart q = smart ->
  match parse_doc smart s with
  | Ok (T d k) => exists d' a k', parse_doc smart s' = Ok (T d' (a ++ k')) /\ n_t d = document /\ n_t d' = document /\ Post a /\ Forall2 (same_blocks (lines_down (length ls0))) k k'
  | Err e => parse_doc smart s' = Err e
  end.
Proof.
  intros Hpost Hs Hs' El Eq Q1 Q2 Q3 Q4 Q5 Q6 Q7. pose proof (result_total (new_parser smart) s Hs) as Hf. pose proof (fun t => doc_positions smart s t Hs) as Hpos. pose proof (parse_doc_facts smart s) as Hty. pose proof (parse_doc_facts smart s') as Hty'.
  change (parse_doc smart s) with (result (parse (new_parser smart) s)) in *. rewrite (parse_finish (new_parser smart) s) in *.
  pose proof (input_lines_ne s) as Hne. assert (Hne' : input_lines s <> []) by (intros E; rewrite E in Hne; cbn in Hne; lia).
  assert (Es' : parse_doc smart s' = let* p1 := incorporate_lines (input_lines s) q in finish (length ls0 + length (input_lines s)) p1).
  { change (parse_doc smart s') with (result (parse (new_parser smart) s')). rewrite parse_finish, (input_lines_text s'), El, <- (input_lines_text s), app_length.
    rewrite incorporate_app, Eq. reflexivity. }
  assert (Hsr : srel (length ls0) 0 0 None [] any_Rl False (as_before k0) [doc_frame] (p_stack q)).
  { rewrite Q1. constructor; [|left; auto]. split; [split; [left; reflexivity|split; [discriminate|reflexivity]]|]. split; [split; [left; left; exact Q2|split; [exact Q3|exact Q4]]|].
    split; [apply as_before_krel|]. split; [tauto|split; discriminate]. }
  pose proof (lines_sim (length ls0) any_Rl False (no_hex _) same_smart (as_before k0) (as_before_blank k0) (input_lines s) (reset (new_parser smart)) q (fun _ => I) Hne' eq_refl Hsr Q5 Q6 I Q7) as H.
  destruct (incorporate_lines (input_lines s) (reset (new_parser smart))) as [p1|e] eqn:E1; cbn [bind] in *.
  - destruct H as (q1 & E2 & H). rewrite E2 in Es'. cbn [bind] in Es'.
    pose proof (finish_sim (length ls0) 0 0 None [] any_Rl False (no_hex _) same_smart (as_before k0) (as_before_blank k0) Post Hpost (length (input_lines s)) p1 q1 ltac:(lia) (fun _ _ X => X) H ltac:(intros x t Ex Et; eapply (blocks_leaf _ s); eassumption)) as G. rewrite (Nat.add_comm (length (input_lines s))) in G.
    destruct (finish (length (input_lines s)) p1) as [t|e].
    + destruct G as (t' & E3 & d & k & d' & k' & -> & G1 & (a & b & -> & G2a & G2) & G3 & G4 & G5 & [[_ ->]|[X _]]); [|discriminate]. rewrite E3 in Es'. exists d', a, b. split; [exact Es'|].
      pose proof (Hty _ Hs eq_refl) as (_ & Hdoc & _). split; [exact Hdoc|].
      split; [apply (Hty' _ Hs' Es')|]. split; [exact G2a|]. specialize (Hpos _ eq_refl). apply tree_every_unfold in Hpos as [_ Hpos].
      clear - G2 Hpos. induction G2 as [|x y l l' Hx _ IH]; [constructor|]. inversion Hpos as [|a b P1 P2]; subst. constructor; [|apply IH, P2].
      eapply prel_blocks; [|exact Hx|exact P1]. intros. cbn [lines_down]. lia.
    + destruct e; cbn in G; try (rewrite Es'; exact G). congruence.
  - destruct e; cbn in H; try (rewrite Es', H; reflexivity). congruence.
Qed.

(** ** In HTML *)
Lemma html_after o d d' a k k' A st : ho_sourcepos o = false -> n_t d = document -> n_t d' = document -> Forall2 eqp k k' ->
  html_events o (flat_map (events [d']) a) (HS [] [LF] 0) = Ok st -> st = HS A [LF] 0 ->
  render_html o (T d' (a ++ k')) = let* h := render_html o (T d k) in Ok (A ++ h).
Proof.
  intros Ho Ed Ed' Hk Ea ->. unfold render_html. rewrite !html_document by assumption. unfold new_html. cbn [h_dis]. rewrite flat_map_app, html_events_app, Ea. cbn [bind].
  change (HS A [LF] 0) with (HS A [LF] 0). replace (HS A [LF] 0) with (hp A (HS [] [LF] 0)) by (unfold hp; cbn [h_buf h_last h_dis]; rewrite app_nil_r; reflexivity).
  rewrite hp_events, (html_kids_same o Ho k k' [d] [d'] _ Hk (arel_doc _ _ Ed Ed')).
  destruct (html_events o (flat_map (events [d]) k) (HS [] [LF] 0)) as [st|e]; reflexivity.
Qed.

(** ** One closed leaf before *)
Lemma leaf_process k : Forall (fun t => is_container (t_type t) = false) k -> forall s, process_all k s = Ok (k, s).
Proof.
  induction 1 as [|[d kk] k Hd _ IH]; intros s; cbn [process_all]; [reflexivity|]. rewrite process_inlines_eq. unfold t_type in Hd. cbn [t_data] in Hd. rewrite Hd. cbn [bind]. rewrite IH. reflexivity.
Qed.
Lemma leaf_marked ld a : is_container (n_t ld) = false -> as_before [T ld []] a -> exists b, a = [T (set_n_last_line_blank b ld) []].
Proof.
  intros H [-> | ->]; [exists (n_last_line_blank ld); destruct ld; reflexivity|exists true; reflexivity].
Qed.
Definition one_leaf (ld : ndata) (a : list tree) : Prop := exists b, a = [T (set_n_last_line_blank b ld) []].
Lemma leaf_post ld a s : is_container (n_t ld) = false -> as_before [T ld []] a -> exists a' s', process_all a s = Ok (a', s') /\ same_ip s s' /\ one_leaf ld a'.
Proof.
  intros H Ha. apply leaf_marked in Ha as (b & ->); [|exact H]. exists [T (set_n_last_line_blank b ld) []], s. split; [apply leaf_process; repeat constructor; exact H|]. split; [split; reflexivity|exists b; reflexivity].
Qed.

Lemma finish_doc ln q d0 k0 : p_stack q = [F d0 k0] -> n_t d0 = document -> n_sourcepos d0 <> None -> (forall s, exists s', process_all k0 s = Ok (k0, s')) ->
  exists d, finish ln q = Ok (T d k0) /\ n_t d = document.
Proof.
  intros Es Ed Hp Hk. unfold finish. rewrite Es. cbn [length finalize_all]. rewrite Es.
  destruct (finalize_bt ln q (F d0 k0) [] Es (or_introl Ed) Hp) as (sp & x & _ & ->). cbn [bind]. unfold attach. cbn [p_stack set_p_stack p_doc set_p_doc of_option bind f_data f_kids].
  rewrite process_bt by (left; exact Ed). match goal with |- context [process_all k0 ?s] => destruct (Hk s) as (s' & ->) end. cbn [bind]. eexists. split; [reflexivity|exact Ed].
Qed.
Theorem leaf_then smart o s ls0 q d0 ld A : ho_sourcepos o = false -> Forall code_point s -> Forall (Forall code_point) ls0 -> Forall no_eol ls0 -> ls0 <> [] ->
  incorporate_lines ls0 (reset (new_parser smart)) = Ok q -> p_stack q = [F d0 [T ld []]] -> n_t d0 = document -> n_sourcepos d0 <> None -> n_string_content d0 = Some [] ->
  p_line_number q = length ls0 -> p_refmap q = [] -> p_smart q = smart -> is_container (n_t ld) = false ->
  (forall b d, n_t d = document -> html_events o (events [d] (T (set_n_last_line_blank b ld) [])) (HS [] [LF] 0) = Ok (HS A [LF] 0)) ->
  md_to_html smart o (flat_map (fun x => x ++ [10%N]) ls0 ++ s) = let* h := md_to_html smart o s in Ok (A ++ h).
Proof.
  intros Ho Hs Hls He Hne Eq Q1 Q2 Q3 Q4 Q5 Q6 Q7 Hc HA. destruct s as [|c s].
  - rewrite app_nil_r. rewrite (blank_html smart o []) by (constructor; [intros c []|constructor]). cbn [bind]. rewrite app_nil_r.
    unfold md_to_html. change (parse_doc smart ?t) with (result (parse (new_parser smart) t)). rewrite parse_finish, input_lines_text, text_lines_lines by assumption. rewrite Eq. cbn [bind].
    destruct (finish_doc (length ls0) q d0 _ Q1 Q2 Q3) as (d & -> & Ed). { intros s. exists s. apply leaf_process. repeat constructor. exact Hc. }
    cbn [bind]. unfold render_html. rewrite html_document by exact Ed. unfold new_html. cbn [h_dis flat_map]. rewrite app_nil_r.
    specialize (HA (n_last_line_blank ld) d Ed). assert (E : set_n_last_line_blank (n_last_line_blank ld) ld = ld) by (destruct ld; reflexivity). rewrite E in HA. rewrite HA. reflexivity.
  - assert (Hs' : Forall code_point (flat_map (fun x => x ++ [10%N]) ls0 ++ c :: s)).
    { apply Forall_app. split; [|exact Hs]. clear - Hls. induction Hls as [|l ls H _ IH]; [constructor|]. cbn [flat_map]. apply Forall_app. split; [|exact IH]. apply Forall_app. split; [exact H|]. constructor; [unfold code_point; lia|constructor]. }
    pose proof (after_blocks (one_leaf ld) smart (c :: s) ls0 _ q d0 [T ld []] (fun a s0 => leaf_post ld a s0 Hc) Hs Hs' ltac:(apply text_lines_before; [exact He|discriminate]) Eq Q1 Q2 Q3 Q4 Q5 Q6 Q7) as H.
    unfold md_to_html. destruct (parse_doc smart (c :: s)) as [[d k]|e]; [|rewrite H; reflexivity]. destruct H as (d' & a & k' & -> & Ed & Ed' & (b & ->) & Hk). cbn [bind].
    eapply html_after; [exact Ho|exact Ed|exact Ed'| | |reflexivity].
    + eapply Forall2_impl'; [|exact Hk]. intros x y. apply same_eqp.
    + cbn [flat_map]. rewrite app_nil_r. apply HA, Ed'.
Qed.
