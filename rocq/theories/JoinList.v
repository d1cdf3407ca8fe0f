(** * The first line behind a list *)
From Verif Require Import Base Regex Common NormRef Node Inlines Blocks RegexFacts StrFacts StrProp Spec SpecTree SpecSame InlineFacts BlockFacts BlockInv BlockRun LineFacts ParseFacts Sim SimFacts EmptyLine JoinLine JoinClose JoinStep.
From Coq Require Import ZifyBool ZifyNat ZifyN.

Definition unblank (t : tree) : tree := T (set_n_last_line_blank false (t_data t)) (t_kids t).
Lemma list_blank v d ks : finalize_list (set_n_last_line_blank v d) ks = (set_n_last_line_blank v (fst (finalize_list d ks)), snd (finalize_list d ks)).
Proof. unfold finalize_list. destruct (check_items ks) as [[|] items]; [|reflexivity]. cbn [fst snd]. unfold loosen. destruct (n_list_data d) eqn:E; cbn [n_list_data set_n_last_line_blank]; rewrite ?E; reflexivity. Qed.
(** closing a list at the end of the document *)
Lemma fin_list n z l ks d k0 : p_stack z = [F l ks; F d k0] -> n_t l = list_ ->
  finalize_tip n z =
    match n_sourcepos l with
    | Some (sp0, _) => let fl := finalize_list (set_n_sourcepos (Some (sp0, (n, p_last_line_length z))) (set_n_is_open false l)) ks in Ok (set_p_stack [F d (k0 ++ [T (fst fl) (snd fl)])] z)
    | None => Err TypeError
    end.
Proof.
  intros Es El. unfold finalize_tip. rewrite Es. cbn zeta. cbn [f_data f_kids]. change (n_sourcepos (set_n_is_open false l)) with (n_sourcepos l). destruct (n_sourcepos l) as [[sp0 y]|]; [|reflexivity]. cbn [of_option bind]. set (d1 := set_n_sourcepos _ _).
  assert (Ed : n_t d1 = list_) by exact El. rewrite Ed. destruct (finalize_list d1 ks) as [d2 items]. reflexivity.
Qed.
Lemma add_text_para p q fr st : close_unmatched_blocks p = Ok q -> p_stack q = fr :: st -> p_blank q = false -> accepts_lines (f_type fr) = Ok false -> p_offset q < length (p_line q) ->
  add_text p = let* p3 := add_child paragraph (p_offset q) (set_p_stack (map (fun fr => set_f_data (set_n_last_line_blank false (f_data fr)) fr) (fr :: st)) q) in add_line (advance_next_nonspace p3).
Proof.
  intros Hc Es Hb Ha Ho. unfold add_text. rewrite Hc. cbn [bind]. unfold tip. rewrite Es. cbn [hd_error of_option bind]. rewrite Hb. cbn [andb tl]. 
  assert (E : match n_sourcepos (f_data fr) with Some (l, _, _) => Ok l | None => Ok (A:=nat) 0 end = Ok match n_sourcepos (f_data fr) with Some (l, _, _) => l | None => 0 end) by (destruct (n_sourcepos (f_data fr)) as [[[? ?] ?]|]; reflexivity).
  rewrite E. cbn [bind]. rewrite Ha. cbn [bind]. destruct fr as [d k]. cbn [f_data f_kids].
  match goal with |- (if (Nat.ltb ?a ?b && negb ?c)%bool then _ else _) = _ => change a with (p_offset q); change b with (length (p_line q)); change c with (p_blank q) end.
  rewrite Hb. apply Nat.ltb_lt in Ho. rewrite Ho. reflexivity.
Qed.
Lemma list_end ln x z w l ks d k0 : close_unmatched_blocks x = Ok z -> (exists t, tip x = Ok t /\ f_type t <> paragraph) ->
  p_stack z = [F l ks; F d k0] -> n_t l = list_ -> n_t d = document -> finalize_tip (p_line_number z - 1) z = Ok w -> rel x w = w -> p_all_closed w = true -> p_blank x = false -> p_next_nonspace x < length (p_line x) ->
  exists t, p_stack w = [F d (k0 ++ [t])] /\ line_end ln (advance_next_nonspace x) = line_end ln (advance_next_nonspace (set_p_stack [F d (k0 ++ [unblank t])] w)).
Proof.
  intros Hc (tp & Et & Ht) Es El Ed Ef Hw Hwc Hb Hlt. rewrite (fin_list _ z l ks d k0 Es El) in Ef. destruct (n_sourcepos l) as [[sp0 y]|] eqn:Esp; [|discriminate]. cbn zeta in Ef. apply Ok_inj in Ef.
  set (fl := finalize_list _ _) in Ef. exists (T (fst fl) (snd fl)). split; [rewrite <- Ef; reflexivity|].
  assert (Ax : advance_next_nonspace x = rel (advance_next_nonspace x) x) by (rewrite <- ann_rel, rel_id; reflexivity).
  set (a := advance_next_nonspace x) in *. set (w2 := set_p_stack _ w).
  assert (Aw : advance_next_nonspace w2 = rel a w2) by (unfold w2, a; rewrite <- Hw; reflexivity). rewrite Aw.
  assert (Ha1 : p_blank a = false) by exact Hb. assert (Ha2 : p_offset a < length (p_line a)) by exact Hlt.
  assert (Hclw : close_unmatched_blocks (rel a w2) = Ok (rel a w2)) by (unfold close_unmatched_blocks; change (p_all_closed (rel a w2)) with (p_all_closed w); rewrite Hwc; reflexivity).
  assert (Hclx : close_unmatched_blocks a = Ok (rel a z)) by (rewrite Ax at 1; rewrite close_rel, Hc; reflexivity).
  unfold line_end. assert (Eta : tip a = Ok tp) by exact Et. rewrite Eta. cbn [bind]. rewrite (not_par _ Ht), andb_false_r.
  assert (Etw : tip (rel a w2) = Ok (F d (k0 ++ [unblank (T (fst fl) (snd fl))]))) by reflexivity. rewrite Etw. cbn [bind]. unfold f_type at 1. cbn [f_data]. rewrite Ed. rewrite (not_par document ltac:(discriminate)), andb_false_r.
  f_equal. rewrite (add_text_para a (rel a z) (F l ks) [F d k0] Hclx Es Ha1 ltac:(unfold f_type; cbn [f_data]; rewrite El; reflexivity) Ha2).
  rewrite (add_text_para (rel a w2) (rel a w2) _ [] Hclw eq_refl Ha1 ltac:(unfold f_type; cbn [f_data]; rewrite Ed; reflexivity) Ha2).
  cbn [map]. set (bl := set_n_last_line_blank false). f_equal. change (p_offset (rel a w2)) with (p_offset a). change (p_offset (rel a z)) with (p_offset a).
  unfold add_child. cbn [p_stack set_p_stack length]. f_equal.
  set (z2 := set_p_stack _ (rel a z)). set (v2 := set_p_stack _ (rel a w2)).
  assert (Er : make_room 2 paragraph v2 = Ok v2) by (cbn [make_room]; unfold tip, v2; cbn [p_stack set_p_stack hd_error of_option bind]; unfold f_type, set_f_data; cbn [f_data]; change (n_t (bl d)) with (n_t d); rewrite Ed; reflexivity).
  rewrite Er. change (make_room 3 paragraph z2) with (let* t := tip z2 in let* ok := can_contain (f_type t) paragraph in if ok then Ok z2 else let* p' := finalize_tip (p_line_number z2 - 1) z2 in make_room 2 paragraph p'). unfold tip at 1, z2 at 1. cbn [p_stack set_p_stack hd_error of_option bind]. unfold f_type at 1, set_f_data at 1. cbn [f_data]. change (n_t (bl l)) with (n_t l). rewrite El.
  change (can_contain list_ paragraph) with (Ok (A:=bool) false). cbn [bind]. rewrite (fin_list _ z2 (bl l) ks (bl d) k0 eq_refl El). change (n_sourcepos (bl l)) with (n_sourcepos l). rewrite Esp. cbn zeta. cbn [bind].
  assert (Ev : v2 = set_p_stack [F (bl d) (k0 ++ [unblank (T (fst fl) (snd fl))])] z2) by (unfold v2, z2, w2; rewrite <- Ef; reflexivity).
  change (p_line_number z2) with (p_line_number z). change (p_last_line_length z2) with (p_last_line_length z).
  change (set_n_sourcepos (Some (sp0, (p_line_number z - 1, p_last_line_length z))) (set_n_is_open false (bl l))) with (bl (set_n_sourcepos (Some (sp0, (p_line_number z - 1, p_last_line_length z))) (set_n_is_open false l))).
  unfold bl at 2 3. rewrite list_blank. fold fl. cbn [fst snd]. change (F (set_n_last_line_blank false d)) with (F (bl d)).
  match goal with |- make_room _ _ ?g = _ => assert (Eg : g = v2) by (rewrite Ev; reflexivity); rewrite Eg end. exact Er.
Qed.

(** ** The blocks before, with the last line of the last one noted as blank or not *)
Definition set_last_blank (v : bool) (ks : list tree) : list tree :=
  match last_opt ks with
  | Some (T d k) => removelast ks ++ [T (set_n_last_line_blank v d) k]
  | None => []
  end.
Definition noted (k a : list tree) : Prop := a = k \/ exists v, a = set_last_blank v k.
Lemma set_last_snoc v l t : set_last_blank v (l ++ [t]) = l ++ [T (set_n_last_line_blank v (t_data t)) (t_kids t)].
Proof. unfold set_last_blank. rewrite last_opt_app by discriminate. cbn [last_opt]. destruct t as [d k]. rewrite removelast_last. reflexivity. Qed.
Lemma noted_blank k a : noted k a -> noted k (mark_last_blank a).
Proof.
  intros [-> |(v & ->)]; right; exists true; [reflexivity|]. destruct k as [|t k _] using rev_ind; [reflexivity|]. rewrite !set_last_snoc, mark_last_blank_snoc. reflexivity.
Qed.
Lemma noted_len k a : noted k a -> length a = length k.
Proof. intros [-> |(v & ->)]; [reflexivity|]. destruct k as [|t k _] using rev_ind; [reflexivity|]. rewrite set_last_snoc, !app_length. reflexivity. Qed.

Section ListStep.
  Variables (p1 pc q : parser) (up : list frame) (l b : frame) (ln : str).
  Hypothesis Es : p_stack p1 = up ++ [l; b].
  Hypothesis El : f_type l = list_.
  Hypothesis Eb : f_type b = document.
  Hypothesis Eq : fin_to 2 (length (p_stack p1)) (p_line_number p1) p1 = Ok q.
  Hypothesis Efin : finalize_tip (p_line_number p1) q = Ok pc.
  Variable x0 : parser.
  Hypothesis X1 : x0 = relk x0 p1.
  Hypothesis X2 : p_line_number x0 = S (p_line_number p1).
  Hypothesis X3 : find_next_nonspace x0 = x0.
  Hypothesis X4 : p_indented x0 = false.
  Hypothesis X5 : p_blank x0 = false.
  Hypothesis X6 : p_next_nonspace x0 < length (p_line x0).
  Hypothesis Htip : exists t, tip p1 = Ok t /\ f_type t <> paragraph.
  Let a := Nat.eqb 2 (length (p_stack x0)).
  Let x := set_p_matched 2 (set_p_all_closed a x0).
  Hypothesis Xm : forall c, c <> paragraph -> parse_list_marker c x = Ok (None, x).
  Let z := set_p_all_closed true (relk x q).
  Let w := set_p_all_closed true (relk x pc).
  Lemma lx_stack : p_stack x0 = up ++ [l; b].
  Proof. rewrite X1. exact Es. Qed.
  Lemma q_stack : exists ks, p_stack q = [F (f_data l) ks; b].
  Proof. destruct (fin_to_base 2 (p_line_number p1) [b] eq_refl up l _ p1 q Es Eq) as (ex & E & _). exists (f_kids l ++ ex). exact E. Qed.
  Lemma list_close : close_unmatched_blocks x = Ok z.
  Proof.
    unfold close_unmatched_blocks, z. change (p_all_closed x) with a. destruct a eqn:Ea.
    - unfold x at 1. rewrite X1. unfold a in Ea. apply Nat.eqb_eq in Ea. rewrite lx_stack in Ea. assert (Eqp : q = p1).
      { pose proof Eq as E. rewrite Es in E. rewrite <- Ea in E. cbn [fin_to] in E. rewrite Es, <- Ea in E. cbn [Nat.leb] in E. apply Ok_inj in E. congruence. }
      rewrite Eqp. unfold x. reflexivity.
    - rewrite close_loop_to. change (p_matched x) with 2. change (p_line_number x) with (p_line_number x0). change (p_stack x) with (p_stack x0). rewrite X2, lx_stack, <- Es. replace (S (p_line_number p1) - 1) with (p_line_number p1) by lia.
      assert (Ex : x = relk x p1) by (unfold x; rewrite X1; reflexivity). assert (E3 : fin_to 2 (length (p_stack p1)) (p_line_number p1) (relk x p1) = Ok (relk x q)) by (rewrite fin_to_relk, Eq; reflexivity). rewrite <- Ex in E3. rewrite E3. reflexivity.
  Qed.
  Lemma z_fin : finalize_tip (p_line_number z - 1) z = Ok w.
  Proof.
    change (p_line_number z) with (p_line_number x0). rewrite X2. replace (S (p_line_number p1) - 1) with (p_line_number p1) by lia. unfold z. change (set_p_all_closed true (relk x q)) with (relk (set_p_all_closed true x) q). rewrite fin_relk, Efin. reflexivity.
  Qed.
  Lemma w_stack : exists k, p_stack w = [F (f_data b) k].
  Proof.
    destruct q_stack as (ks & E). change (p_stack w) with (p_stack pc). pose proof Efin as G. destruct b as [d k0]. rewrite (fin_list _ q (f_data l) ks d k0 E El) in G. destruct (n_sourcepos _) as [[? ?]|]; [|discriminate]. cbn zeta in G. apply Ok_inj in G as <-. eexists. reflexivity.
  Qed.
  Lemma list_closes' : closes x z w.
  Proof.
    destruct w_stack as (k & Ew). destruct q_stack as (ks & Eqs). constructor; [constructor| | |].
    - exact list_close.
    - reflexivity.
    - reflexivity.
    - intros tag off Ht. assert (Etag : ntype_eqb tag item = false) by (destruct tag; try reflexivity; congruence). unfold add_child. change (p_stack z) with (p_stack q). rewrite Eqs, Ew. cbn [length]. f_equal.
      assert (Er : make_room 2 tag w = Ok w) by (cbn [make_room]; unfold tip; rewrite Ew; cbn [hd_error of_option bind]; unfold f_type; cbn [f_data]; unfold f_type in Eb; rewrite Eb; unfold can_contain; cbn [is_block_type bind]; rewrite Etag; reflexivity).
      rewrite Er. change (make_room 3 tag z) with (let* t := tip z in let* ok := can_contain (f_type t) tag in if ok then Ok z else let* p' := finalize_tip (p_line_number z - 1) z in make_room 2 tag p').
      unfold tip at 1. change (p_stack z) with (p_stack q). rewrite Eqs. cbn [hd_error of_option bind]. unfold f_type at 1. cbn [f_data]. unfold f_type in El. rewrite El. unfold can_contain. cbn [is_block_type bind]. rewrite Etag, z_fin. cbn [bind]. exact Er.
    - unfold tip. change (p_stack x) with (p_stack x0). rewrite lx_stack, <- Es. exact Htip.
    - unfold tip. rewrite Ew. eexists. split; [reflexivity|]. unfold f_type. cbn [f_data]. unfold f_type in Eb. rewrite Eb. discriminate.
    - right. exact Xm.
  Qed.
  Lemma lx_block : block_at 2 x = Ok l.
  Proof. unfold block_at. change (p_stack x) with (p_stack x0). rewrite lx_stack, app_length. cbn [length]. rewrite nth_error_app2 by lia. replace (_ - _) with 0 by lia. reflexivity. Qed.
  Lemma lx_fnn : find_next_nonspace x = x.
  Proof. unfold x. rewrite fnn_flags, X3. reflexivity. Qed.
  Lemma list_rest : line_rest (S (length ln)) ln (Some 2, x0) = line_tail (S (length ln)) ln 2 x.
  Proof. unfold line_rest. fold a. fold x. rewrite lx_block. cbn [bind]. rewrite El. reflexivity. Qed.
  (** against any line that is read as with everything closed before *)
  Variables (dl : nat) (Rl : nat -> nat -> Prop) (ex : Prop).
  Hypothesis Hex : ex -> dl = 0 /\ 0 = 0 /\ 0 = 0 /\ (forall a b, Rl a b -> b = a).
  Variable Rs : bool -> bool -> Prop.
  Variables (k : list tree) (Pre : list tree -> Prop).
  Hypothesis Ek : p_stack pc = [F (f_data b) k].
  Hypothesis Hpre : forall k, Pre k -> Pre (mark_last_blank k).
  Hypothesis HPre : forall a, Pre a <-> noted k a.
  Notation R0 := (R0 dl 0 0 None [] Rl ex Rs Pre).
  Notation R1 := (R1 dl 0 0 None [] Rl ex Rs Pre).
  Lemma list_step y : R0 y w -> 1 <= length (p_stack y) -> Rl (length ln) (length ln) -> rrel R1 (line_tail (S (length ln)) ln 1 y) (line_tail (S (length ln)) ln 2 x).
  Proof.
    intros Hy Hly Hl. unfold line_tail at 1. unfold line_tail.
    pose proof (starts_loop_sim dl 0 0 None [] Rl ex Hex Rs Pre Hpre (S (length ln)) (S (length ln)) 1 y w (le_n _) Hy ltac:(lia)) as Hs. change (1 + 0) with 1 in Hs.
    destruct w_stack as (k' & Ew). assert (Ewb : block_at 1 w = Ok (F (f_data b) k')) by (unfold block_at; rewrite Ew; reflexivity).
    destruct (loop_same _ _ _ list_closes' (length ln) 2 1 l _ lx_fnn lx_block Ewb ltac:(rewrite El; discriminate)) as [[-> Gw]|G].
    - right. split; [exact X4|]. unfold f_type. cbn [f_data]. unfold f_type in Eb. rewrite Eb. discriminate.
    - rewrite Gw in Hs. destruct (starts_loop _ 1 y) as [[n4 y4]|e]; [|destruct e; cbn in Hs |- *; try discriminate; exact I]. destruct Hs as ([n5 w5] & E5 & Hs). apply Ok_inj in E5. injection E5 as <- <-. cbn [snd bind] in *.
      destruct q_stack as (ks & Eqs). set (bd := f_data b) in *. set (bk := f_kids b). assert (Eqs' : p_stack z = [F (f_data l) ks; F bd bk]) by (change (p_stack z) with (p_stack q); rewrite Eqs; unfold bd, bk; destruct b; reflexivity).
      destruct (list_end ln x z w (f_data l) ks bd bk list_close (c_tip _ _ _ list_closes') Eqs' El Eb z_fin eq_refl eq_refl X5 X6) as (t & Et & ->).
      assert (Ekt : k = bk ++ [t]) by (change (p_stack w) with (p_stack pc) in Et; rewrite Ek in Et; congruence).
      apply line_end_sim; [exact Hex|exact Hpre| |exact Hl]. clearbody bd bk. clear -Hs Et Ekt HPre Hex. set (w2 := set_p_stack _ w).
      destruct Hs as [Hs H1 H2 H3 H4 H5]. constructor; try assumption. destruct Hs. constructor; try assumption.
      assert (Es4 : p_stack (advance_next_nonspace w) = [F bd (bk ++ [t])]) by exact Et. rewrite Es4 in r_stack. change (p_stack (advance_next_nonspace w2)) with [F bd (bk ++ [unblank t])].
      inversion r_stack as [f f' e Hf He E1 E2|? ? ? ? ? H E1 E2]; subst; [|inversion H]. constructor; [|exact He].
      destruct Hf as (F1 & F2 & (ka & kb & F3 & F4 & F5) & F6 & F7 & F8). split; [exact F1|]. split; [exact F2|]. split.
      + apply HPre in F4. apply noted_len in F4. cbn [f_kids] in F3. rewrite F3, app_length in F4. assert (kb = []) as -> by (destruct kb; [reflexivity|cbn in F4; lia]). exists (bk ++ [unblank t]), []. rewrite app_nil_r. split; [reflexivity|]. split; [|exact F5].
        apply HPre. right. exists false. rewrite set_last_snoc. reflexivity.
      + split; [|split; [exact F7|exact F8]]. intros X. apply F6 in X. exact X.
    - destruct (starts_loop _ 2 x) as [[k0 p]|e].
      + destruct G as (k1 & G). rewrite G in Hs. destruct (starts_loop _ 1 y) as [[n4 y4]|e]; [|destruct e; cbn in Hs |- *; try discriminate; exact I].
        destruct Hs as ([n5 w5] & E5 & Hs). apply Ok_inj in E5. injection E5 as <- <-. cbn [snd bind] in *. apply line_end_sim; assumption.
      + rewrite G in Hs. destruct (starts_loop _ 1 y) as [[n4 y4]|e']; [destruct Hs as (? & X & _); discriminate|]. cbn [bind]. destruct e'; cbn in Hs |- *; try exact I; congruence.
  Qed.
End ListStep.
