(** * Closing the open blocks, at the end of a text or on the next line *)
From Verif Require Import Base Regex Common NormRef Node Inlines Blocks RegexFacts StrFacts StrProp Spec SpecTree SpecSame InlineFacts BlockFacts BlockInv BlockRun LineFacts ParseFacts Sim SimFacts EmptyLine JoinLine.
From Coq Require Import ZifyBool ZifyNat ZifyN.

(** ** Closing depends on the open blocks, the definitions and the length of the last line *)
Definition relk (x z : parser) : parser :=
  P (p_stack z) (p_doc z) (p_line x) (p_line_number x) (p_offset x) (p_column x) (p_next_nonspace x) (p_next_nonspace_column x) (p_indent x) (p_indented x) (p_blank x) (p_pct x) (p_all_closed x) (p_matched x) (p_refmap z) (p_last_line_length z) (p_ip z) (p_smart x).
Lemma attach_relk x t z : attach t (relk x z) = relk x (attach t z).
Proof. unfold attach. change (p_stack (relk x z)) with (p_stack z). destruct (p_stack z); reflexivity. Qed.
Lemma fin_relk ln x z : finalize_tip ln (relk x z) = rmap (relk x) (finalize_tip ln z).
Proof.
  unfold finalize_tip. change (p_stack (relk x z)) with (p_stack z). destruct (p_stack z) as [|f st]; [reflexivity|]. cbn zeta.
  destruct (of_option TypeError _) as [[sp0 y]|]; [|reflexivity]. cbn [bind]. change (p_last_line_length (relk x z)) with (p_last_line_length z). set (d := set_n_sourcepos _ _).
  change (set_p_stack st (relk x z)) with (relk x (set_p_stack st z)). set (z0 := set_p_stack st z). clearbody z0 d.
  destruct (n_t d); try reflexivity; try (cbn [rmap]; f_equal; apply attach_relk).
  - destruct (finalize_list _ _). cbn [rmap]. f_equal; apply attach_relk.
  - unfold finalize_paragraph, strip_refs. destruct (of_option TypeError _) as [c|]; [|reflexivity]. cbn [bind]. change (p_ip (relk x z0)) with (p_ip z0). change (p_refmap (relk x z0)) with (p_refmap z0).
    destruct (ref_loop _ _ _ _ _) as [[[[c1 fo] s1] rm]|]; [|reflexivity]. cbn [bind rmap]. destruct (_ && _); [reflexivity|]. f_equal. rewrite <- attach_relk. reflexivity.
  - destruct (finalize_code d); [|reflexivity]. cbn [bind rmap]. f_equal. apply attach_relk.
  - destruct (finalize_html d); [|reflexivity]. cbn [bind rmap]. f_equal. apply attach_relk.
Qed.
Definition held (p q : parser) : Prop := q = relk p q /\ p_last_line_length q = p_last_line_length p.
Lemma fin_held ln p q : finalize_tip ln p = Ok q -> held p q.
Proof.
  intros E. assert (Ep : p = relk p p) by (destruct p; reflexivity). rewrite Ep, fin_relk in E. destruct (finalize_tip ln p) as [y|] eqn:Ey; [|discriminate]. cbn [rmap] in E. apply Ok_inj in E as <-. split; [reflexivity|].
  cbn [relk p_last_line_length]. revert Ey. clear. unfold finalize_tip. destruct (p_stack p) as [|f st]; [discriminate|]. cbn zeta.
  destruct (of_option TypeError _) as [[sp0 z]|]; [|discriminate]. cbn [bind]. set (d := set_n_sourcepos _ _). clearbody d.
  assert (Ha : forall t p0, p_last_line_length (attach t p0) = p_last_line_length p0) by (intros t p0; unfold attach; destruct (p_stack p0); reflexivity).
  destruct (n_t d); try discriminate; try (intros E; apply Ok_inj in E as <-; exact (Ha _ _)).
  - destruct (finalize_list _ _). intros E; apply Ok_inj in E as <-; exact (Ha _ _).
  - unfold finalize_paragraph, strip_refs. destruct (of_option TypeError _) as [c|]; [|discriminate]. cbn [bind].
    destruct (ref_loop _ _ _ _ _) as [[[[c1 fo] s1] rm]|]; [|discriminate]. cbn [bind]. intros E. apply Ok_inj in E as <-. destruct (_ && _); [reflexivity|]. exact (Ha _ _).
  - destruct (finalize_code d); [|discriminate]. cbn [bind]. intros E; apply Ok_inj in E as <-; exact (Ha _ _).
  - destruct (finalize_html d); [|discriminate]. cbn [bind]. intros E; apply Ok_inj in E as <-; exact (Ha _ _).
Qed.
Lemma held_refl p : held p p.
Proof. split; [destruct p; reflexivity|reflexivity]. Qed.
Lemma held_trans p q r : held p q -> held q r -> held p r.
Proof. intros [H1 H2] [H3 H4]. split; [rewrite H3, H1; reflexivity|congruence]. Qed.

(** ** What the closed block is *)
Lemma ref_found f content s rm c s' rm' : ref_loop f content false s rm = Ok (c, true, s', rm') -> infix [93; 58]%N content.
Proof.
  destruct f as [|f]; cbn [ref_loop]; [discriminate|]. destruct (opt_is 91 _); [|intros E; apply Ok_inj in E; discriminate].
  destruct (parseReference content rm s) as [[[n s1] rm1]|] eqn:E; [|discriminate]. cbn [bind]. destruct (reference_colon _ _ _ _ _ _ E) as [[-> _]|Hi]; [|intros _; exact Hi].
  cbn [Nat.eqb]. intros G. apply Ok_inj in G. discriminate.
Qed.
Definition gone (fr : frame) : Prop := f_type fr = paragraph /\ exists c, n_string_content (f_data fr) = Some c /\ infix [93; 58]%N c.
Definition closing (n : nat) (fr : frame) (t : tree) : Prop := t_type t = f_type fr /\ last_line (t_data t) = n /\ n_is_fenced (t_data t) = n_is_fenced (f_data fr).
Lemma fin_facts n p q fr par st : p_stack p = fr :: par :: st -> finalize_tip n p = Ok q ->
  exists ex, p_stack q = F (f_data par) (f_kids par ++ ex) :: st /\ ((ex = [] /\ gone fr) \/ exists t, ex = [t] /\ closing n fr t).
Proof.
  intros Es. unfold finalize_tip. rewrite Es. cbn zeta. cbn [n_sourcepos set_n_is_open]. destruct (n_sourcepos (f_data fr)) as [[[sl sc] sp1]|] eqn:Esp; [|discriminate]. cbn [of_option bind].
  set (d := set_n_sourcepos _ _). assert (Hd : closing n fr (T d (f_kids fr))) by (split; [reflexivity|split; reflexivity]). assert (Ed : n_t d = f_type fr) by reflexivity. assert (Edc : n_string_content d = n_string_content (f_data fr)) by reflexivity.
  assert (Ha : forall t p0, p_stack p0 = par :: st -> p_stack (attach t p0) = F (f_data par) (f_kids par ++ [t]) :: st) by (intros t p0 E0; unfold attach; rewrite E0; reflexivity).
  assert (Hdone : forall t p0, p_stack p0 = par :: st -> closing n fr t -> exists ex, p_stack (attach t p0) = F (f_data par) (f_kids par ++ ex) :: st /\ ((ex = [] /\ gone fr) \/ exists t, ex = [t] /\ closing n fr t)).
  { intros t p0 E0 Ht. exists [t]. split; [apply Ha, E0|]. right. exists t. auto. }
  clearbody d.
  destruct (n_t d) eqn:Et; try discriminate; try (intros E; apply Ok_inj in E as <-; apply Hdone; [reflexivity|exact Hd]).
  - unfold finalize_list. destruct (check_items (f_kids fr)) as [[|] items]; intros E; apply Ok_inj in E as <-; (apply Hdone; [reflexivity|exact Hd]).
  - unfold finalize_paragraph, strip_refs. rewrite Edc. destruct (n_string_content (f_data fr)) as [c|] eqn:Ec; [|discriminate]. cbn [of_option bind].
    destruct (ref_loop _ _ _ _ _) as [[[[c1 fo] s1] rm]|] eqn:Er; [|discriminate]. cbn [bind]. destruct (fo && is_blank c1)%bool eqn:Ef; intros E; apply Ok_inj in E as <-; [|apply Hdone; [reflexivity|exact Hd]].
    apply andb_true_iff in Ef as [-> _]. exists []. rewrite app_nil_r. split; [cbn; destruct par; reflexivity|]. left. split; [reflexivity|]. split; [congruence|]. exists c. split; [exact Ec|]. eapply ref_found; exact Er.
  - unfold finalize_code. destruct (of_option AttributeError _) as [c|]; [|discriminate]. cbn [bind]. destruct (n_is_fenced d) eqn:Ef.
    + destruct (of_option ValueError _) as [i|]; [|discriminate]. cbn [bind]. intros E; apply Ok_inj in E as <-. apply Hdone; [reflexivity|exact Hd].
    + cbn [bind]. intros E; apply Ok_inj in E as <-. apply Hdone; [reflexivity|exact Hd].
  - unfold finalize_html. destruct (of_option TypeError _) as [c|]; [|discriminate]. cbn [bind]. intros E; apply Ok_inj in E as <-. apply Hdone; [reflexivity|exact Hd].
Qed.

(** ** Closing down to some depth *)
Fixpoint fin_to (m f n : nat) (p : parser) : res parser :=
  if Nat.leb (length (p_stack p)) m then Ok p
  else match f with O => Err OutOfFuel | S f => let* p' := finalize_tip n p in fin_to m f n p' end.
Lemma fin_to_relk m x : forall f n z, fin_to m f n (relk x z) = rmap (relk x) (fin_to m f n z).
Proof.
  induction f as [|f IH]; intros n z; cbn [fin_to]; change (p_stack (relk x z)) with (p_stack z); destruct (Nat.leb _ m); try reflexivity.
  rewrite fin_relk. destruct (finalize_tip n z); [|reflexivity]. cbn [rmap bind]. apply IH.
Qed.
Lemma close_loop_to : forall f p, close_loop f p = fin_to (p_matched p) f (p_line_number p - 1) p.
Proof.
  induction f as [|f IH]; intros p; cbn [close_loop fin_to]; [destruct (Nat.leb _ _); reflexivity|]. destruct (Nat.leb _ _); [reflexivity|].
  destruct (finalize_tip _ p) as [q|] eqn:E; [|reflexivity]. cbn [bind]. apply fin_held in E as [E _]. rewrite IH. rewrite E. reflexivity.
Qed.
Lemma fin_to_held m : forall f n p q, fin_to m f n p = Ok q -> held p q.
Proof.
  induction f as [|f IH]; intros n p q; cbn [fin_to]; destruct (Nat.leb _ m); try discriminate; try (intros E; apply Ok_inj in E as <-; apply held_refl).
  destruct (finalize_tip n p) as [y|] eqn:E; [|discriminate]. cbn [bind]. intros G. eapply held_trans; [eapply fin_held; exact E|eapply IH; exact G].
Qed.
Lemma fin_to_base m n st : S (length st) = m -> forall up b f p q, p_stack p = up ++ b :: st -> fin_to m f n p = Ok q ->
  exists ex, p_stack q = F (f_data b) (f_kids b ++ ex) :: st /\
    match last_opt up with None => ex = [] /\ q = p | Some ch => (ex = [] /\ gone ch) \/ exists t, ex = [t] /\ closing n ch t end.
Proof.
  intros Hm up. remember (length up) as k eqn:Ek. revert up Ek. induction k as [|k IH]; intros up Ek b f p q Es.
  - destruct up; [|discriminate]. cbn [app] in Es. destruct f; cbn [fin_to]; rewrite Es; cbn [length]; rewrite Hm, Nat.leb_refl; intros E; apply Ok_inj in E as <-; (exists []; rewrite app_nil_r; split; [rewrite Es; destruct b; reflexivity|split; reflexivity]).
  - assert (El : Nat.leb (length (p_stack p)) m = false) by (apply Nat.leb_gt; rewrite Es, app_length; cbn [length]; lia). destruct up as [|fr up]; [discriminate|]. cbn [app] in Es.
    destruct f as [|f]; cbn [fin_to]; rewrite El; [discriminate|]. destruct (finalize_tip n p) as [y|] eqn:Ey; [|discriminate]. cbn [bind].
    destruct up as [|par up].
    + cbn [app] in Es. destruct (fin_facts n p y fr b st Es Ey) as (ex & E1 & E2). intros E. assert (y = q) as <-.
      { destruct f; cbn [fin_to] in E; rewrite E1 in E; cbn [length] in E; rewrite Hm, Nat.leb_refl in E; apply Ok_inj in E; exact E. }
      exists ex. split; [exact E1|]. exact E2.
    + cbn [app] in Es. destruct (fin_facts n p y fr par (up ++ b :: st) Es Ey) as (ex & E1 & _). intros E.
      destruct (IH (F (f_data par) (f_kids par ++ ex) :: up) ltac:(cbn in *; lia) b f y q E1 E) as (ex' & G1 & G2). exists ex'. split; [exact G1|].
      destruct up as [|c0 up]; [exact G2|].
      change (fr :: par :: c0 :: up) with ([fr; par] ++ c0 :: up). change (F (f_data par) (f_kids par ++ ex) :: c0 :: up) with ([F (f_data par) (f_kids par ++ ex)] ++ c0 :: up) in G2. rewrite last_opt_app in * by discriminate.
      destruct (last_opt (c0 :: up)) eqn:El2; [exact G2|]. apply last_opt_none in El2. discriminate.
Qed.
Lemma fin_len n p q : 2 <= length (p_stack p) -> finalize_tip n p = Ok q -> S (length (p_stack q)) = length (p_stack p).
Proof.
  intros Hl E. destruct (p_stack p) as [|fr [|par st]] eqn:Es; [cbn in Hl; lia|cbn in Hl; lia|]. destruct (fin_facts _ _ _ _ _ _ Es E) as (ex & -> & _). reflexivity.
Qed.
Lemma fin_last n p q a : p_stack p = [a] -> finalize_tip n p = Ok q -> p_stack q = [].
Proof.
  intros Es. unfold finalize_tip. rewrite Es. cbn zeta. destruct (of_option TypeError _) as [[sp0 z]|]; [|discriminate]. cbn [bind]. set (d := set_n_sourcepos _ _). clearbody d.
  assert (Ha : forall t p0, p_stack p0 = [] -> p_stack (attach t p0) = []) by (intros t p0 E0; unfold attach; rewrite E0; exact E0).
  destruct (n_t d); try discriminate; try (intros E; apply Ok_inj in E as <-; apply Ha; reflexivity).
  - destruct (finalize_list _ _). intros E; apply Ok_inj in E as <-; apply Ha; reflexivity.
  - unfold finalize_paragraph, strip_refs. destruct (of_option TypeError _) as [c|]; [|discriminate]. cbn [bind].
    destruct (ref_loop _ _ _ _ _) as [[[[c1 fo] s1] rm]|]; [|discriminate]. cbn [bind]. intros E. apply Ok_inj in E as <-. destruct (_ && _); [reflexivity|]. apply Ha; reflexivity.
  - destruct (finalize_code d); [|discriminate]. cbn [bind]. intros E; apply Ok_inj in E as <-; apply Ha; reflexivity.
  - destruct (finalize_html d); [|discriminate]. cbn [bind]. intros E; apply Ok_inj in E as <-; apply Ha; reflexivity.
Qed.
Lemma fin_doc n p q d k : p_stack p = [F d k] -> n_t d = document -> finalize_tip n p = Ok q -> exists d', p_doc q = Some (T d' k) /\ n_t d' = document /\ p_refmap q = p_refmap p /\ p_smart q = p_smart p.
Proof.
  intros Es Ed. unfold finalize_tip. rewrite Es. cbn zeta. destruct (of_option TypeError _) as [[sp0 z]|]; [|discriminate]. cbn [bind]. set (d1 := set_n_sourcepos _ _). assert (Ed1 : n_t d1 = document) by exact Ed. rewrite Ed1.
  intros E. apply Ok_inj in E as <-. exists d1. split; [reflexivity|]. split; [exact Ed|]. split; reflexivity.
Qed.
Lemma fin_to_split m n : 1 <= m -> forall f p, S m <= length (p_stack p) -> length (p_stack p) <= f + m -> fin_to m f n p = let* q := fin_to (S m) f n p in finalize_tip n q.
Proof.
  intros Hm. induction f as [|f IH]; intros p Hl Hf; [lia|]. cbn [fin_to].
  assert (Nat.leb (length (p_stack p)) m = false) as -> by (apply Nat.leb_gt; lia). destruct (Nat.leb_spec (length (p_stack p)) (S m)) as [L|L].
  - cbn [bind]. destruct (finalize_tip n p) as [q|] eqn:E; [|reflexivity]. cbn [bind]. apply fin_len in E; [|lia]. assert (Eq : Nat.leb (length (p_stack q)) m = true) by (apply Nat.leb_le; lia). destruct f; cbn [fin_to]; rewrite Eq; reflexivity.
  - destruct (finalize_tip n p) as [q|] eqn:E; [|reflexivity]. cbn [bind]. apply fin_len in E; [|lia]. apply IH; lia.
Qed.
Lemma finalize_all_to n : forall f p, 1 <= length (p_stack p) -> length (p_stack p) <= f -> finalize_all f n p = let* q := fin_to 1 f n p in let* r := finalize_tip n q in Ok r.
Proof.
  induction f as [|f IH]; intros p Hl Hf; [lia|]. cbn [finalize_all fin_to]. destruct (Nat.leb_spec (length (p_stack p)) 1) as [L|L].
  - cbn [bind]. destruct (p_stack p) as [|a [|b st]] eqn:Es; [cbn in Hl; lia| |cbn in L; lia]. destruct (finalize_tip n p) as [q|] eqn:E; [|reflexivity]. cbn [bind].
    assert (Eq : p_stack q = []) by (eapply fin_last; eassumption). destruct f; cbn [finalize_all]; rewrite Eq; reflexivity.
  - destruct (finalize_tip n p) as [q|] eqn:E; [|destruct (p_stack p); [cbn in Hl; lia|]; reflexivity]. cbn [bind]. apply fin_len in E; [|lia]. destruct (p_stack p); [cbn in Hl; lia|]. apply IH; lia.
Qed.
