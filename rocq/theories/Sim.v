(** * Two parses side by side

    One relation between parser states serves three properties: what a parser object was used
    for before does not matter (C02), blank lines before the text do not matter (C41), and a
    quoted text gives the same blocks (C45).  The right-hand state may be [dl] lines further,
    have [dc] more characters before the text of every line, [dd] more open blocks at the
    bottom, and any inline parser state. *)
From Verif Require Import Base Regex Common NormRef Node Inlines Blocks RegexFacts RegexLang StrFacts Spec SpecTree TreeFacts BlockFacts BlockInv.
From Coq Require Import ZifyBool ZifyNat ZifyN.

(** ** Results: a loop that runs out of fuel on the left says nothing *)
Definition rrel {A B} (R : A -> B -> Prop) (x : res A) (y : res B) : Prop :=
  match x with
  | Ok a => exists b, y = Ok b /\ R a b
  | Err OutOfFuel => True
  | Err e => y = Err e
  end.
Lemma rrel_bind {A B A' B'} (R : A -> B -> Prop) (R' : A' -> B' -> Prop) x y f g :
  rrel R x y -> (forall a b, R a b -> rrel R' (f a) (g b)) -> rrel R' (bind x f) (bind y g).
Proof.
  intros H1 H2. destruct x as [a|e]; cbn in *.
  - destruct H1 as (b & -> & H). apply H2, H.
  - destruct e; try rewrite H1; cbn; auto.
Qed.
Lemma rrel_ok {A B} (R : A -> B -> Prop) a b : R a b -> rrel R (Ok a) (Ok b).
Proof. intros H. exists b. auto. Qed.
Lemma rrel_err {A B} (R : A -> B -> Prop) e : rrel R (Err e) (Err e).
Proof. destruct e; cbn; auto. Qed.
Lemma rrel_eq {A} (x : res A) : rrel eq x x.
Proof. destruct x as [a|e]; [exists a; auto|apply rrel_err]. Qed.
Lemma rrel_mono {A B} (R R' : A -> B -> Prop) x y : (forall a b, R a b -> R' a b) -> rrel R x y -> rrel R' x y.
Proof. intros H. destruct x as [a|e]; cbn; [|auto]. intros (b & -> & Hb). eauto. Qed.

(** ** Reference definitions do not depend on the state of the inline parser *)
Definition ips (a b : ip) : Prop := ip_subject b = ip_subject a /\ ip_pos b = ip_pos a.
Lemma ips_pos a b n : ips a b -> ips (set_ip_pos n a) (set_ip_pos n b).
Proof. intros [H1 H2]. split; [exact H1|reflexivity]. Qed.
Definition pair_rel {A} (R : ip -> ip -> Prop) (x y : A * ip) : Prop := fst y = fst x /\ R (snd x) (snd y).
Lemma ip_match_sim r a b : ips a b ->
  match ip_match r a, ip_match r b with
  | Some x, Some y => pair_rel ips x y
  | None, None => True
  | _, _ => False
  end.
Proof.
  intros [H1 H2]. unfold ip_match. rewrite H1, H2. destruct (re_search r _) as [m|]; [|exact I].
  split; [reflexivity|]. split; [exact H1|]. reflexivity.
Qed.
Lemma spnl_sim a b : ips a b -> ips (spnl a) (spnl b).
Proof.
  intros H. unfold spnl, ip_skip. pose proof (ip_match_sim reSpnl a b H) as G.
  destruct (ip_match reSpnl a) as [[? ?]|], (ip_match reSpnl b) as [[? ?]|]; try tauto. apply G.
Qed.
Lemma ip_adv_sim n a b : ips a b -> ips (ip_adv n a) (ip_adv n b).
Proof. intros [H1 H2]. split; [exact H1|]. cbn. rewrite H2. reflexivity. Qed.
Lemma ip_peek_sim a b : ips a b -> ip_peek b = ip_peek a.
Proof. intros [H1 H2]. unfold ip_peek. rewrite H1, H2. reflexivity. Qed.
Lemma peek_is_sim c a b : ips a b -> peek_is c b = peek_is c a.
Proof. intros H. unfold peek_is. rewrite (ip_peek_sim a b H). reflexivity. Qed.
Lemma dest_loop_sim : forall f n a b, ips a b -> rrel (pair_rel ips) (dest_loop f n a) (dest_loop f n b).
Proof.
  induction f as [|f IH]; intros n a b H; cbn [dest_loop]; [exact I|]. rewrite (ip_peek_sim a b H).
  destruct (ip_peek a) as [c|]; [|apply rrel_ok; split; [reflexivity|exact H]].
  pose proof H as [H1 H2]. rewrite H1, H2. destruct (N.eqb c 92 && _).
  - apply IH. pose proof (ip_adv_sim 1 a b H) as G. rewrite (ip_peek_sim _ _ G). destruct (ip_peek (ip_adv 1 a)); [apply ip_adv_sim, G|exact G].
  - destruct (N.eqb c 40); [apply IH, ip_adv_sim, H|]. destruct (N.eqb c 41).
    + destruct n; [apply rrel_ok; split; [reflexivity|exact H]|apply IH, ip_adv_sim, H].
    + destruct (re_test reWhitespaceChar [c]); [apply rrel_ok; split; [reflexivity|exact H]|apply IH, ip_adv_sim, H].
Qed.
Lemma parseLinkDestination_sim a b : ips a b -> rrel (pair_rel ips) (parseLinkDestination a) (parseLinkDestination b).
Proof.
  intros H. unfold parseLinkDestination. pose proof (ip_match_sim reLinkDestinationBraces a b H) as G.
  destruct (ip_match _ a) as [[m x]|], (ip_match _ b) as [[m' y]|]; try tauto.
  - destruct G as [E G]. cbn in E. subst m'. eapply rrel_bind; [apply rrel_eq|]. intros d ? <-. apply rrel_ok. split; [reflexivity|exact G].
  - rewrite (peek_is_sim 60 a b H). destruct (peek_is 60 a); [apply rrel_ok; split; [reflexivity|exact H]|].
    pose proof H as [H1 H2]. rewrite H1, H2. eapply rrel_bind; [apply dest_loop_sim, H|]. intros [c x] [c' y] [E [E1 E2]]. cbn in E, E1, E2. subst c'.
    rewrite E1, E2. destruct (Nat.eqb _ _ && _); [apply rrel_ok; split; [reflexivity|split; assumption]|].
    eapply rrel_bind; [apply rrel_eq|]. intros d ? <-. apply rrel_ok. split; [reflexivity|split; assumption].
Qed.
Lemma parseLinkTitle_sim a b : ips a b -> pair_rel ips (parseLinkTitle a) (parseLinkTitle b).
Proof.
  intros H. unfold parseLinkTitle. pose proof (ip_match_sim reLinkTitle a b H) as G.
  destruct (ip_match _ a) as [[m x]|], (ip_match _ b) as [[m' y]|]; try tauto; [|split; [reflexivity|exact H]].
  destruct G as [E G]. cbn in E. subst m'. split; [reflexivity|exact G].
Qed.
Lemma parseLinkLabel_sim a b : ips a b -> pair_rel ips (parseLinkLabel a) (parseLinkLabel b).
Proof.
  intros H. unfold parseLinkLabel. pose proof (ip_match_sim reLinkLabel a b H) as G.
  destruct (ip_match _ a) as [[m x]|], (ip_match _ b) as [[m' y]|]; try tauto; [|split; [reflexivity|exact H]].
  destruct G as [E G]. cbn in E. subst m'. destruct (Nat.ltb _ _); (split; [reflexivity|exact G]).
Qed.
Definition ref_rel (x y : nat * ip * refmap_t) : Prop := let '(n, _, rm) := x in let '(n', _, rm') := y in n' = n /\ rm' = rm.
Lemma parseReference_sim subj rm a b : rrel ref_rel (parseReference subj rm a) (parseReference subj rm b).
Proof.
  unfold parseReference.
  assert (H0 : ips (set_ip_pos 0 (set_ip_subject subj a)) (set_ip_pos 0 (set_ip_subject subj b))) by (split; reflexivity).
  pose proof (parseLinkLabel_sim _ _ H0) as H1. destruct (parseLinkLabel _) as [n s1], (parseLinkLabel (set_ip_pos 0 (set_ip_subject subj b))) as [n' s1'].
  destruct H1 as [E H1]. cbn in E, H1. subst n'. destruct (Nat.eqb n 0 || Nat.eqb n 2); [apply rrel_ok; split; reflexivity|].
  rewrite (peek_is_sim 58 _ _ H1). destruct (negb _); [apply rrel_ok; split; reflexivity|].
  eapply rrel_bind; [apply parseLinkDestination_sim, spnl_sim, ip_adv_sim, H1|]. intros [d s3] [d' s3'] [E H3]. cbn in E, H3. subst d'.
  destruct d as [d|]; [|apply rrel_ok; split; reflexivity].
  pose proof (spnl_sim _ _ H3) as H4. set (s4 := spnl s3) in *. set (s4' := spnl s3') in *. pose proof H3 as [_ E3]. pose proof H4 as [_ E4].
  rewrite E3, E4.
  assert (H5 : pair_rel ips (if Nat.eqb (ip_pos s4) (ip_pos s3) then (None, s4) else parseLinkTitle s4) (if Nat.eqb (ip_pos s4) (ip_pos s3) then (None, s4') else parseLinkTitle s4')).
  { destruct (Nat.eqb _ _); [split; [reflexivity|exact H4]|apply parseLinkTitle_sim, H4]. }
  destruct (if Nat.eqb (ip_pos s4) (ip_pos s3) then (None, s4) else parseLinkTitle s4) as [t5 s5].
  destruct (if Nat.eqb (ip_pos s4) (ip_pos s3) then (None, s4') else parseLinkTitle s4') as [t5' s5']. destruct H5 as [E H5]. cbn in E, H5. subst t5'.
  assert (H6 : pair_rel ips (match t5 with None => ([], set_ip_pos (ip_pos s3) s5) | Some t => (t, s5) end) (match t5 with None => ([], set_ip_pos (ip_pos s3) s5') | Some t => (t, s5') end)).
  { destruct t5; (split; [reflexivity|]); [exact H5|apply ips_pos, H5]. }
  destruct (match t5 with None => ([], set_ip_pos (ip_pos s3) s5) | Some t => (t, s5) end) as [t6 s6].
  destruct (match t5 with None => ([], set_ip_pos (ip_pos s3) s5') | Some t => (t, s5') end) as [t6' s6']. destruct H6 as [E H6]. cbn in E, H6. subst t6'.
  set (m7 := match ip_match reSpaceAtEndOfLine s6 with Some (_, x) => _ | None => _ end).
  set (m7' := match ip_match reSpaceAtEndOfLine s6' with Some (_, x) => _ | None => _ end).
  assert (H7 : pair_rel ips m7 m7').
  { unfold m7, m7'. pose proof (ip_match_sim reSpaceAtEndOfLine _ _ H6) as G.
    destruct (ip_match _ s6) as [[m x]|], (ip_match _ s6') as [[m' y]|]; try tauto; [split; [reflexivity|apply G]|].
    destruct (is_nil t6); [split; [reflexivity|exact H6]|]. pose proof (ips_pos _ _ (ip_pos s3) H6) as H8.
    pose proof (ip_match_sim reSpaceAtEndOfLine _ _ H8) as G8.
    destruct (ip_match _ (set_ip_pos _ s6)) as [[m x]|], (ip_match _ (set_ip_pos _ s6')) as [[m' y]|]; try tauto; (split; [reflexivity|]); [apply G8|exact H8]. }
  destruct m7 as [e7 s7], m7' as [e7' s7']. destruct H7 as [E [_ E7]]. cbn in E, E7. subst e7'.
  destruct (negb e7); [apply rrel_ok; split; reflexivity|]. destruct (is_nil _); [apply rrel_ok; split; reflexivity|].
  apply rrel_ok. split; [exact E7|reflexivity].
Qed.
Definition refs_rel (x y : str * bool * ip * refmap_t) : Prop := let '(c, f, _, rm) := x in let '(c', f', _, rm') := y in c' = c /\ f' = f /\ rm' = rm.
Lemma ref_loop_sim : forall f content found a b rm, rrel refs_rel (ref_loop f content found a rm) (ref_loop f content found b rm).
Proof.
  induction f as [|f IH]; intros content found a b rm; cbn [ref_loop]; [exact I|]. destruct (opt_is 91 _); [|apply rrel_ok; repeat split].
  eapply rrel_bind; [apply parseReference_sim|]. intros [[n s] rm1] [[n' s'] rm1'] [-> ->].
  destruct (Nat.eqb n 0); [apply rrel_ok; repeat split|]. apply IH.
Qed.

(** ** Data, trees, frames, stacks *)
Section Sim.
  Variables (dl dc dd : nat) (LD : option ldata) (LK : list tree) (Rl : nat -> nat -> Prop) (ex : Prop).
  Hypothesis Hex : ex -> dl = 0 /\ dc = 0 /\ dd = 0 /\ (forall a b, Rl a b -> b = a).
  (** how the smart options compare *)
  Variable Rs : bool -> bool -> Prop.
  (** closed blocks that the right-hand document has before those of the left-hand one *)
  Variable Pre : list tree -> Prop.
  Hypothesis Hpre : forall k, Pre k -> Pre (mark_last_blank k).

  Definition posrel (a b : option (nat * nat * (nat * nat))) : Prop :=
    match a, b with
    | None, None => True
    | Some (l, c, (el, ec)), Some (l', c', (el', ec')) =>
        l' = l + dl /\ c' = c + dc /\ ((el, ec, el', ec') = (0, 0, 0, 0) \/ el' = el + dl /\ Rl ec ec')
    | _, _ => False
    end.
  Definition drel (d d' : ndata) : Prop := exists sp, d' = set_n_sourcepos sp d /\ posrel (n_sourcepos d) sp.
  Inductive trel : tree -> tree -> Prop :=
  | trel_intro d d' k k' : drel d d' -> Forall2 trel k k' -> trel (T d k) (T d' k').
  Definition frel (f f' : frame) : Prop := drel (f_data f) (f_data f') /\ Forall2 trel (f_kids f) (f_kids f').
  Definition krel (k k' : list tree) : Prop := exists a b, k' = a ++ b /\ Pre a /\ Forall2 trel k b.
  Definition bt (t : ntype) : Prop := t = document \/ t = block_quote.
  Definition bdata (d : ndata) : Prop := bt (n_t d) /\ n_sourcepos d <> None /\ n_string_content d = Some [].
  (** the right-hand bottom block may be an item (of a list in the document) whose content is [dc] columns in *)
  Definition bt' (t : ntype) : Prop := bt t \/ (dd = 2 /\ t = item).
  Definition bdata' (d : ndata) : Prop := bt' (n_t d) /\ n_sourcepos d <> None /\ n_string_content d = Some [].
  Definition kind (d : ndata) : Prop := (dd = 1 -> n_t d = block_quote) /\ (dd = 2 -> n_t d = item /\ item_indent d = Ok dc).
  Definition brel (f f' : frame) : Prop :=
    bdata (f_data f) /\ bdata' (f_data f') /\ krel (f_kids f) (f_kids f') /\ (ex -> f_data f' = f_data f) /\
    kind (f_data f').
  Definition erel (e : list frame) : Prop :=
    (e = [] /\ dd = 0) \/ (exists d, e = [F d []] /\ n_t d = document /\ n_sourcepos d <> None /\ dd = 1) \/
    (exists l d, e = [F l LK; F d []] /\ (n_t l = list_ /\ n_list_data l = LD) /\ n_sourcepos l <> None /\ n_t d = document /\ n_sourcepos d <> None /\ dd = 2).
  Inductive srel : list frame -> list frame -> Prop :=
  | srel_bot b b' e : brel b b' -> erel e -> srel [b] (b' :: e)
  | srel_cons f f' st st' : frel f f' -> srel st st' -> srel (f :: st) (f' :: st').
  (** types of related blocks *)
  Definition tsame (t t' : ntype) : Prop := t' = t \/ (bt t /\ bt' t').

  Lemma drel_set (g : ndata -> ndata) d d' : (forall sp x, g (set_n_sourcepos sp x) = set_n_sourcepos sp (g x)) ->
    (forall x, n_sourcepos (g x) = n_sourcepos x) -> drel d d' -> drel (g d) (g d').
  Proof. intros H1 H2 (sp & -> & H). exists sp. rewrite H1, H2. auto. Qed.
  Lemma drel_type d d' : drel d d' -> n_t d' = n_t d.
  Proof. intros (sp & -> & _). reflexivity. Qed.
  Lemma drel_field {X} (g : ndata -> X) d d' : (forall sp x, g (set_n_sourcepos sp x) = g x) -> drel d d' -> g d' = g d.
  Proof. intros H (sp & -> & _). apply H. Qed.
  Lemma drel_pos d d' : drel d d' -> posrel (n_sourcepos d) (n_sourcepos d').
  Proof. intros (sp & -> & H). exact H. Qed.
  Lemma drel_nopos d : n_sourcepos d = None -> drel d d.
  Proof. intros H. exists None. split; [destruct d; cbn in *; subst; reflexivity|rewrite H; exact I]. Qed.

  Lemma trel_data t t' : trel t t' -> drel (t_data t) (t_data t') /\ Forall2 trel (t_kids t) (t_kids t').
  Proof. intros H. inversion H; subst. auto. Qed.
  Lemma Forall2_len {X Y} (P : X -> Y -> Prop) a b : Forall2 P a b -> length b = length a.
  Proof. induction 1; cbn; congruence. Qed.
  Lemma Forall2_nil {X Y} (P : X -> Y -> Prop) a b : Forall2 P a b -> is_nil b = is_nil a.
  Proof. destruct 1; reflexivity. Qed.

  (** *** Tight and loose *)
  Definition btrel (x y : bool * tree) : Prop := fst y = fst x /\ trel (snd x) (snd y).
  Definition bksrel (x y : bool * list tree) : Prop := fst y = fst x /\ Forall2 trel (snd x) (snd y).
  Lemma drel_checked b d d' : drel d d' -> drel (set_n_last_line_checked b d) (set_n_last_line_checked b d').
  Proof. apply drel_set; reflexivity. Qed.
  Lemma ewbl_rel : forall t t', trel t t' -> btrel (ends_with_blank_line t) (ends_with_blank_line t').
  Proof.
    induction t as [d kids IH] using tree_ind'. intros t' H. inversion H as [d0 d' k0 k' Hd Hk]; subst. cbn [ends_with_blank_line].
    rewrite (drel_field n_last_line_blank d d'), (drel_field n_last_line_checked d d'), (drel_type d d') by (reflexivity || exact Hd).
    destruct (n_last_line_blank d); [split; [reflexivity|exact H]|]. destruct (negb _ && _).
    - set (f := fix on_last (ks : list tree) : bool * list tree := _).
      assert (G : bksrel (f kids) (f k')).
      { clear H. revert k' Hk. induction IH as [|x l Hx _ IHl]; intros k' Hk; inversion Hk as [|? y ? l' Hxy Hl]; subst; [split; [reflexivity|constructor]|].
        destruct l as [|x2 l2]; inversion Hl; subst.
        - cbn [f]. specialize (Hx _ Hxy). destruct (ends_with_blank_line x), (ends_with_blank_line y). destruct Hx as [E Hx]. split; [exact E|]. cbn in *. repeat constructor; assumption.
        - match goal with |- bksrel (f (_ :: _ :: ?a)) (f (_ :: ?b :: ?c)) => change (f (x :: x2 :: a)) with (let '(r, l) := f (x2 :: a) in (r, x :: l)); change (f (y :: b :: c)) with (let '(r, l) := f (b :: c) in (r, y :: l)) end.
          specialize (IHl _ Hl). destruct (f (x2 :: l2)), (f (_ :: _)). destruct IHl as [E G]. split; [exact E|]. cbn in *. constructor; assumption. }
      destruct (f kids), (f k'). destruct G as [E G]. cbn in E, G. subst. split; [reflexivity|]. constructor; [apply drel_checked, Hd|exact G].
    - split; [reflexivity|]. constructor; [apply drel_checked, Hd|exact Hk].
  Qed.
  Lemma check_subitems_rel b : forall l l', Forall2 trel l l' -> bksrel (check_subitems b l) (check_subitems b l').
  Proof.
    induction 1 as [|x y l l' Hxy Hl IH]; cbn [check_subitems]; [split; [reflexivity|constructor]|].
    pose proof (ewbl_rel x y Hxy) as G. destruct (ends_with_blank_line x) as [r x'], (ends_with_blank_line y) as [r' y']. destruct G as [E G]. cbn in E, G. subst r'.
    rewrite (Forall2_nil _ _ _ Hl). destruct (r && _); [split; [reflexivity|constructor; assumption]|].
    destruct (check_subitems b l), (check_subitems b l'). destruct IH as [E G2]. cbn in E, G2. subst. split; [reflexivity|constructor; assumption].
  Qed.
  Lemma check_items_rel : forall l l', Forall2 trel l l' -> bksrel (check_items l) (check_items l').
  Proof.
    induction 1 as [|x y l l' Hxy Hl IH]; cbn [check_items]; [split; [reflexivity|constructor]|].
    pose proof (ewbl_rel x y Hxy) as G. destruct (ends_with_blank_line x) as [r x'], (ends_with_blank_line y) as [r' y']. destruct G as [E G]. cbn in E, G. subst r'.
    rewrite (Forall2_nil _ _ _ Hl). destruct (r && _); [split; [reflexivity|constructor; assumption]|].
    apply trel_data in G as [G1 G2]. pose proof (check_subitems_rel (negb (is_nil l)) _ _ G2) as G3.
    destruct (check_subitems _ (t_kids x')), (check_subitems _ (t_kids y')). destruct G3 as [E G3]. cbn in E, G3. subst.
    destruct (check_items l), (check_items l'). destruct IH as [E G4]. cbn in E, G4. subst. split; [reflexivity|]. constructor; [constructor; assumption|assumption].
  Qed.
  Lemma loosen_rel d d' : drel d d' -> drel (loosen d) (loosen d').
  Proof. apply (drel_set loosen); reflexivity. Qed.
  Lemma finalize_list_rel d d' l l' : drel d d' -> Forall2 trel l l' ->
    drel (fst (finalize_list d l)) (fst (finalize_list d' l')) /\ Forall2 trel (snd (finalize_list d l)) (snd (finalize_list d' l')).
  Proof.
    intros Hd Hl. unfold finalize_list. pose proof (check_items_rel l l' Hl) as G. destruct (check_items l) as [b x], (check_items l') as [b' y]. destruct G as [E G]. cbn in E, G. subst b'.
    destruct b; cbn [fst snd]; [|auto]. split; [apply loosen_rel, Hd|]. destruct G as [|[dx kx] [dy ky] ? ? G1 G2]; [constructor|]. apply trel_data in G1 as [G1 G3]. cbn in G1, G3.
    constructor; [|exact G2]. constructor; [apply loosen_rel, G1|exact G3].
  Qed.
  Lemma last_opt_rel {X} (P : X -> X -> Prop) l l' : Forall2 P l l' ->
    match last_opt l, last_opt l' with Some x, Some y => P x y /\ Forall2 P (removelast l) (removelast l') | None, None => True | _, _ => False end.
  Proof.
    induction 1 as [|x y l l' Hxy Hl IH]; [exact I|]. rewrite !last_opt_cons. destruct Hl as [|x2 y2 l l' H2 Hl].
    - cbn. split; [exact Hxy|constructor].
    - destruct (last_opt (x2 :: l)) eqn:E1; [|apply last_opt_none in E1; discriminate]. destruct (last_opt (y2 :: l')) eqn:E2; [|destruct IH].
      destruct IH as [I1 I2]. split; [exact I1|]. change (removelast (x :: x2 :: l)) with (x :: removelast (x2 :: l)). change (removelast (y :: y2 :: l')) with (y :: removelast (y2 :: l')). constructor; assumption.
  Qed.
  Lemma mark_last_blank_rel l l' : Forall2 trel l l' -> Forall2 trel (mark_last_blank l) (mark_last_blank l').
  Proof.
    intros H. unfold mark_last_blank. pose proof (last_opt_rel _ _ _ H) as G. destruct (last_opt l) as [[d k]|], (last_opt l') as [[d' k']|]; try tauto; [|constructor].
    destruct G as [G1 G2]. apply Forall2_app; [exact G2|]. constructor; [|constructor]. apply trel_data in G1 as [G1 G3]. constructor; [|exact G3].
    apply (drel_set (set_n_last_line_blank true)); [reflexivity..|exact G1].
  Qed.

  Lemma mark_last_blank_snoc l t : mark_last_blank (l ++ [t]) = l ++ [T (set_n_last_line_blank true (t_data t)) (t_kids t)].
  Proof. unfold mark_last_blank. rewrite last_opt_app. cbn [last_opt]. destruct t as [d k]. rewrite removelast_last. reflexivity. Qed.
  Lemma mark_last_blank_krel l l' : krel l l' -> krel (mark_last_blank l) (mark_last_blank l').
  Proof.
    intros (a & b & -> & Ha & H). destruct b as [|x b] using rev_ind.
    - inversion H; subst. rewrite app_nil_r. exists (mark_last_blank a), []. rewrite app_nil_r. split; [reflexivity|]. split; [apply Hpre, Ha|constructor].
    - clear IHb. rewrite app_assoc, mark_last_blank_snoc, <- app_assoc, <- mark_last_blank_snoc. exists a, (mark_last_blank (b ++ [x])). split; [reflexivity|]. split; [exact Ha|apply mark_last_blank_rel, H].
  Qed.
  Lemma krel_snoc k k' t t' : krel k k' -> trel t t' -> krel (k ++ [t]) (k' ++ [t']).
  Proof. intros (a & b & -> & Ha & H) Ht. exists a, (b ++ [t']). rewrite app_assoc. split; [reflexivity|]. split; [exact Ha|]. apply Forall2_app; [exact H|repeat constructor; exact Ht]. Qed.

  (** *** Parser states *)
  Record R0 (p q : parser) : Prop := {
    r_stack : srel (p_stack p) (p_stack q);
    r_line : exists pre, length pre = dc /\ p_line q = pre ++ p_line p;
    r_tab : dc = 0 \/ ~ In TAB (p_line p);
    r_num : p_line_number q = p_line_number p + dl;
    r_num1 : 1 <= p_line_number p;
    r_off : p_offset q = p_offset p + dc;
    r_col : p_column q = p_column p + dc;
    r_pct : p_pct q = p_pct p;
    r_pctz : dc = 0 \/ p_pct p = false;
    r_closed : p_all_closed q = p_all_closed p;
    r_matched : p_all_closed p = false -> p_matched q = p_matched p + dd /\ 1 <= p_matched p;
    r_refmap : p_refmap q = p_refmap p;
    r_lll : Rl (p_last_line_length p) (p_last_line_length q);
    r_smart : Rs (p_smart p) (p_smart q) }.
  (** after [find_next_nonspace] *)
  Record R1 (p q : parser) : Prop := {
    r_0 : R0 p q;
    r_blank : p_blank q = p_blank p;
    r_nn : p_next_nonspace q = p_next_nonspace p + dc;
    r_nnc : p_next_nonspace_column q = p_next_nonspace_column p + dc;
    r_indent : p_indent q = p_indent p;
    r_indented : p_indented q = p_indented p }.
  Ltac r0 H := destruct H; constructor; cbn [p_stack p_line p_line_number p_offset p_column p_pct p_all_closed p_matched p_refmap p_last_line_length p_smart
     set_p_stack set_p_doc set_p_line set_p_line_number set_p_offset set_p_column set_p_next_nonspace set_p_next_nonspace_column set_p_indent set_p_indented set_p_blank set_p_pct set_p_all_closed set_p_matched set_p_refmap set_p_last_line_length set_p_ip set_p_smart]; auto.

  Lemma r_peek p q i : R0 p q -> peek (p_line q) (i + dc) = peek (p_line p) i.
  Proof.
    intros H. destruct (r_line _ _ H) as (pre & E & ->). unfold peek. rewrite nth_error_app2 by lia. f_equal. lia.
  Qed.
  Lemma r_skip p q i : R0 p q -> skipn (i + dc) (p_line q) = skipn i (p_line p).
  Proof.
    intros H. destruct (r_line _ _ H) as (pre & E & ->). rewrite skipn_app, (skipn_all2 pre) by lia. cbn [app]. f_equal. lia.
  Qed.
  Lemma r_length p q : R0 p q -> length (p_line q) = length (p_line p) + dc.
  Proof. intros H. destruct (r_line _ _ H) as (pre & E & ->). rewrite app_length. lia. Qed.
  Lemma r_rest_offset p q : R0 p q -> rest_offset q = rest_offset p.
  Proof. intros H. unfold rest_offset. rewrite (r_off _ _ H). apply r_skip, H. Qed.
  Lemma r_rest_nonspace p q : R1 p q -> rest_nonspace q = rest_nonspace p.
  Proof. intros H. unfold rest_nonspace. rewrite (r_nn _ _ H). apply r_skip, H. Qed.
  Lemma r_peek_offset p q : R0 p q -> peek (p_line q) (p_offset q) = peek (p_line p) (p_offset p).
  Proof. intros H. rewrite (r_off _ _ H). apply r_peek, H. Qed.
  Lemma r_peek_nonspace p q : R1 p q -> peek (p_line q) (p_next_nonspace q) = peek (p_line p) (p_next_nonspace p).
  Proof. intros H. rewrite (r_nn _ _ H). apply r_peek, H. Qed.

  Lemma skip_spaces_shift : forall s i c, (dc = 0 \/ ~ In TAB s) ->
    skip_spaces s (i + dc) (c + dc) = let '(a, b) := skip_spaces s i c in (a + dc, b + dc).
  Proof.
    induction s as [|x s IH]; intros i c H; cbn [skip_spaces]; [reflexivity|].
    assert (H' : dc = 0 \/ ~ In TAB s) by (cbn in H; tauto).
    destruct (N.eqb x SP); [apply (IH (S i) (S c)), H'|]. destruct (N.eqb_spec x TAB) as [->|]; [|reflexivity].
    destruct H as [H|H]; [|cbn in H; tauto]. rewrite H, !Nat.add_0_r. destruct (skip_spaces s _ _). rewrite !Nat.add_0_r. reflexivity.
  Qed.
  Lemma find_next_nonspace_sim p q : R0 p q -> R1 (find_next_nonspace p) (find_next_nonspace q).
  Proof.
    intros H. unfold find_next_nonspace. rewrite (r_rest_offset _ _ H), (r_off _ _ H), (r_col _ _ H), skip_spaces_shift.
    2: { destruct (r_tab _ _ H) as [E|E]; [left; exact E|right]. intros G. apply E. unfold rest_offset in G. rewrite <- (firstn_skipn (p_offset p)). apply in_or_app. right. exact G. }
    destruct (skip_spaces _ _ _) as [i c]. rewrite (r_peek p q i H). replace (c + dc - (p_column p + dc)) with (c - p_column p) by lia.
    constructor; try reflexivity. r0 H.
  Qed.
  Lemma advance_next_nonspace_sim p q : R1 p q -> R1 (advance_next_nonspace p) (advance_next_nonspace q).
  Proof.
    intros H. destruct H as [H H1 H2 H3 H4 H5]. unfold advance_next_nonspace. constructor; [|assumption..]. r0 H.
  Qed.
  Lemma advance_loop_sim0 : forall f n cols p q, R0 p q -> R0 (advance_loop f n cols p) (advance_loop f n cols q).
  Proof.
    induction f as [|f IH]; intros n cols p q H; cbn [advance_loop]; [exact H|]. destruct n as [|n]; [exact H|]. rewrite (r_peek_offset _ _ H).
    destruct (peek (p_line p) (p_offset p)) as [c|] eqn:Ec; [|exact H]. destruct (N.eqb_spec c TAB) as [->|].
    - destruct (r_tab _ _ H) as [E|E]; [|exfalso; apply E; eapply nth_error_In; exact Ec].
      assert (Ecol : p_column q = p_column p) by (rewrite (r_col _ _ H); lia). assert (Eoff : p_offset q = p_offset p) by (rewrite (r_off _ _ H); lia).
      rewrite Ecol, Eoff. destruct cols; apply IH; r0 H; lia.
    - apply IH. r0 H; lia.
  Qed.
  Lemma advance_offset_sim0 n cols p q : R0 p q -> R0 (advance_offset n cols p) (advance_offset n cols q).
  Proof. apply advance_loop_sim0. Qed.
  Lemma r1_mv a b c p q : R1 p q -> R0 (mv a b c p) (mv (a + dc) (b + dc) c q) -> R1 (mv a b c p) (mv (a + dc) (b + dc) c q).
  Proof. intros [H H1 H2 H3 H4 H5] G. constructor; assumption. Qed.
  Lemma advance_offset_sim n cols p q : R1 p q -> R1 (advance_offset n cols p) (advance_offset n cols q).
  Proof.
    intros H. pose proof (advance_offset_sim0 n cols p q (r_0 _ _ H)) as G.
    destruct (advance_offset_mv n cols p) as (a & b & c & E & _), (advance_offset_mv n cols q) as (a' & b' & c' & E' & _). rewrite E, E' in *.
    destruct H as [H H1 H2 H3 H4 H5]. constructor; assumption.
  Qed.
  Lemma advance_to_end_sim p q : R1 p q -> R1 (advance_to_end p) (advance_to_end q).
  Proof.
    intros H. unfold advance_to_end. rewrite (r_length _ _ (r_0 _ _ H)), (r_off _ _ (r_0 _ _ H)).
    replace (length (p_line p) + dc - (p_offset p + dc)) with (length (p_line p) - p_offset p) by lia. apply advance_offset_sim, H.
  Qed.
  Lemma skip_fence_offset_sim : forall i p q, R1 p q -> R1 (skip_fence_offset i p) (skip_fence_offset i q).
  Proof.
    induction i as [|i IH]; intros p q H; cbn [skip_fence_offset]; [exact H|]. rewrite (r_peek_offset _ _ (r_0 _ _ H)).
    destruct (is_space_or_tab _); [|exact H]. apply IH, advance_offset_sim, H.
  Qed.

  (** *** Stacks *)
  Lemma srel_len st st' : srel st st' -> length st' = length st + dd /\ 1 <= length st.
  Proof. clear Hpre. induction 1 as [b b' e _ [[-> E]|[(d & -> & _ & _ & E)|(l & d & -> & _ & _ & _ & _ & E)]]|f f' st st' _ _ IH]; cbn [length]; lia. Qed.
  Lemma srel_frame st st' i f : srel st st' -> nth_error st i = Some f ->
    exists f', nth_error st' i = Some f' /\ (frel f f' /\ S i < length st \/ brel f f' /\ S i = length st).
  Proof.
    intros H. revert i. induction H as [b b' e Hb He|f0 f0' st st' Hf H IH]; intros i E.
    - destruct i as [|i]; [|destruct i; discriminate]. cbn in E. injection E as <-. exists b'. auto.
    - destruct i as [|i]; cbn in E |- *; [injection E as <-; exists f0'; split; [reflexivity|]; left; split; [exact Hf|]; apply srel_len in H; lia|].
      destruct (IH i E) as (f' & E' & [[G1 G2]|[G1 G2]]); exists f'; (split; [exact E'|]); [left|right]; (split; [exact G1|]); lia.
  Qed.
  Lemma frel_type f f' : frel f f' -> f_type f' = f_type f.
  Proof. intros [H _]. apply drel_type, H. Qed.
  Lemma brel_type f f' : brel f f' -> bt (f_type f) /\ bt' (f_type f').
  Proof. intros ((H1 & _) & (H2 & _) & _). auto. Qed.
  Lemma fb_type f f' : frel f f' \/ brel f f' -> tsame (f_type f) (f_type f').
  Proof. intros [H|H]; [left; apply frel_type, H|right; apply brel_type, H]. Qed.
  Lemma r1_stack p q st st' : R1 p q -> srel st st' -> R1 (set_p_stack st p) (set_p_stack st' q).
  Proof. intros [H H1 H2 H3 H4 H5] G. constructor; [|assumption..]. r0 H. Qed.
  Lemma r1_closed p q : R1 p q -> R1 (set_p_all_closed true p) (set_p_all_closed true q).
  Proof. intros [H H1 H2 H3 H4 H5]. constructor; [|assumption..]. r0 H. discriminate. Qed.
  Lemma r1_refs p q rm i j : R1 p q -> R1 (set_p_ip i (set_p_refmap rm p)) (set_p_ip j (set_p_refmap rm q)).
  Proof. intros [H H1 H2 H3 H4 H5]. constructor; [|assumption..]. r0 H. Qed.

  Lemma tip_sim p q : R1 p q -> rrel (fun f f' => frel f f' \/ brel f f') (tip p) (tip q).
  Proof.
    intros H. unfold tip. destruct (r_stack _ _ (r_0 _ _ H)); cbn [hd_error of_option]; apply rrel_ok; auto.
  Qed.
  Lemma on_tip_sim (g g' : ndata -> ndata) p q : R1 p q ->
    (forall d d', drel d d' -> hd_error (map f_data (p_stack p)) = Some d -> drel (g d) (g' d')) ->
    (forall d d', bdata d -> bdata' d' -> (ex -> d' = d) -> hd_error (map f_data (p_stack p)) = Some d -> bdata (g d) /\ bdata' (g' d') /\ (ex -> g' d' = g d) /\ n_t (g' d') = n_t d' /\ n_list_data (g' d') = n_list_data d') ->
    rrel R1 (on_tip g p) (on_tip g' q).
  Proof.
    intros H Hf Hb. unfold on_tip. pose proof (r_stack _ _ (r_0 _ _ H)) as Hs. destruct Hs as [b b' e Hb0 He|f f' st st' [Hf1 Hf2] Hs].
    - apply rrel_ok, r1_stack; [exact H|]. destruct Hb0 as (B1 & B2 & B3 & B4 & B5). destruct (Hb _ _ B1 B2 B4 eq_refl) as (C1 & C2 & C3 & C4 & C5).
      constructor; [|exact He]. split; [exact C1|]. split; [exact C2|]. split; [exact B3|]. split; [exact C3|]. cbn [f_data set_f_data]. unfold kind, item_indent in *. rewrite C4, C5. exact B5.
    - apply rrel_ok, r1_stack; [exact H|]. constructor; [|exact Hs]. split; [apply Hf; [exact Hf1|reflexivity]|exact Hf2].
  Qed.

  (** *** Closing blocks *)
  Definition bprel {A} (x y : A * parser) : Prop := fst y = fst x /\ R1 (snd x) (snd y).
  Lemma strip_refs_sim c p q : R1 p q -> rrel bprel (strip_refs c p) (strip_refs c q).
  Proof.
    intros H. unfold strip_refs. rewrite (r_refmap _ _ (r_0 _ _ H)). eapply rrel_bind; [apply ref_loop_sim|].
    intros [[[c1 f1] s1] rm1] [[[c2 f2] s2] rm2] (-> & -> & ->). apply rrel_ok. split; [reflexivity|]. apply r1_refs, H.
  Qed.
  Lemma attach_sim t t' p q : R1 p q -> trel t t' -> R1 (attach t p) (attach t' q).
  Proof.
    intros H Ht. unfold attach. pose proof (r_stack _ _ (r_0 _ _ H)) as Hs. destruct Hs as [b b' e (B1 & B2 & B3 & B4 & B5) He|f f' st st' [Hf1 Hf2] Hs].
    - apply r1_stack; [exact H|]. constructor; [|exact He]. split; [exact B1|]. split; [exact B2|]. split; [apply krel_snoc; assumption|]. split; [exact B4|exact B5].
    - apply r1_stack; [exact H|]. constructor; [|exact Hs]. split; [exact Hf1|]. apply Forall2_app; [exact Hf2|repeat constructor; exact Ht].
  Qed.
  Lemma finalize_code_sim d d' : drel d d' -> rrel drel (finalize_code d) (finalize_code d').
  Proof.
    intros Hd. unfold finalize_code. rewrite (drel_field n_string_content d d'), (drel_field n_is_fenced d d') by (reflexivity || exact Hd).
    eapply rrel_bind; [apply rrel_eq|]. intros c ? <-. destruct (n_is_fenced d).
    - eapply rrel_bind; [apply rrel_eq|]. intros i ? <-. apply rrel_ok.
      apply (drel_set (fun d => set_n_string_content None (set_n_literal (Some (skipn (i + 1) c)) (set_n_info (Some (unescape_string (strip (firstn i c)))) d)))); [reflexivity..|exact Hd].
    - apply rrel_ok. apply (drel_set (fun d => set_n_string_content None (set_n_literal (Some (re_sub reTrailingBlank (fun _ => [LF]) c)) d))); [reflexivity..|exact Hd].
  Qed.
  Lemma finalize_html_sim d d' : drel d d' -> rrel drel (finalize_html d) (finalize_html d').
  Proof.
    intros Hd. unfold finalize_html. rewrite (drel_field n_string_content d d') by (reflexivity || exact Hd).
    eapply rrel_bind; [apply rrel_eq|]. intros c ? <-. apply rrel_ok.
    apply (drel_set (fun d => set_n_string_content None (set_n_literal (Some (re_sub reTrailingBlank (fun _ => []) c)) d))); [reflexivity..|exact Hd].
  Qed.
  Lemma finalize_paragraph_sim d d' p q : drel d d' -> R1 p q ->
    rrel (fun x y => drel (fst (fst x)) (fst (fst y)) /\ snd (fst y) = snd (fst x) /\ R1 (snd x) (snd y)) (finalize_paragraph d p) (finalize_paragraph d' q).
  Proof.
    intros Hd H. unfold finalize_paragraph. rewrite (drel_field n_string_content d d') by (reflexivity || exact Hd).
    eapply rrel_bind; [apply rrel_eq|]. intros c ? <-. eapply rrel_bind; [apply strip_refs_sim, H|].
    intros [[c1 f1] p1] [[c2 f2] p2] [E G]. cbn [fst snd] in E, G. injection E as -> ->. apply rrel_ok. cbn [fst snd].
    split; [apply (drel_set (set_n_string_content (Some c1))); [reflexivity..|exact Hd]|]. split; [reflexivity|exact G].
  Qed.
  Lemma finalize_tip_sim ln ln' p q : R1 p q -> 2 <= length (p_stack p) -> ln' = ln + dl ->
    rrel R1 (finalize_tip ln p) (finalize_tip ln' q).
  Proof.
    intros H Hl ->. unfold finalize_tip. pose proof (r_stack _ _ (r_0 _ _ H)) as Hs. destruct Hs as [b b' e Hb0 He|f f' st st' [Hf1 Hf2] Hs]; [cbn in Hl; lia|].
    pose proof (drel_set (set_n_is_open false) _ _ ltac:(reflexivity) ltac:(reflexivity) Hf1) as Hd.
    set (d := set_n_is_open false (f_data f)) in *. set (d' := set_n_is_open false (f_data f')) in *.
    pose proof (drel_pos _ _ Hd) as Hp. destruct (n_sourcepos d) as [[[l c] [el ec]]|]; destruct (n_sourcepos d') as [[[l' c'] [el' ec']]|]; cbn [posrel] in Hp; try contradiction; [|apply rrel_err].
    cbn [of_option bind]. destruct Hp as (E1 & E2 & _).
    assert (Hd' : drel (set_n_sourcepos (Some (l, c, (ln, p_last_line_length p))) d) (set_n_sourcepos (Some (l', c', (ln + dl, p_last_line_length q))) d')).
    { destruct Hd as (sp & Ed & _). rewrite Ed. eexists. split; [reflexivity|]. repeat split; auto. right. split; [reflexivity|]. apply (r_lll _ _ (r_0 _ _ H)). }
    set (e := set_n_sourcepos (Some (l, c, _)) d) in *. set (e' := set_n_sourcepos (Some (l', c', _)) d') in *.
    pose proof (r1_stack p q st st' H Hs) as H0.
    assert (HA : R1 (attach (T e (f_kids f)) (set_p_stack st p)) (attach (T e' (f_kids f')) (set_p_stack st' q))) by (apply attach_sim; [exact H0|constructor; assumption]).
    rewrite (drel_type _ _ Hd'). destruct (n_t e); try (apply rrel_err); try (apply rrel_ok; exact HA).
    - pose proof (finalize_list_rel e e' (f_kids f) (f_kids f') Hd' Hf2) as [G1 G2]. destruct (finalize_list e (f_kids f)), (finalize_list e' (f_kids f')). cbn [fst snd] in G1, G2.
      apply rrel_ok, attach_sim; [exact H0|constructor; assumption].
    - eapply rrel_bind; [apply finalize_paragraph_sim; [exact Hd'|exact H0]|]. intros [[d1 g1] p1] [[d2 g2] p2] (G1 & G2 & G3). cbn [fst snd] in G1, G2, G3. subst g2.
      apply rrel_ok. destruct g1; [exact G3|]. apply attach_sim; [exact G3|constructor; assumption].
    - eapply rrel_bind; [apply finalize_code_sim, Hd'|]. intros d1 d2 G. apply rrel_ok, attach_sim; [exact H0|constructor; assumption].
    - eapply rrel_bind; [apply finalize_html_sim, Hd'|]. intros d1 d2 G. apply rrel_ok, attach_sim; [exact H0|constructor; assumption].
  Qed.
  Lemma tsame_contain t t' tag : tsame t t' -> can_contain t' tag = can_contain t tag.
  Proof. intros [->|[[->| ->] [[->| ->]|[_ ->]]]]; reflexivity. Qed.
  Lemma tsame_accepts t t' : tsame t t' -> accepts_lines t' = accepts_lines t.
  Proof. intros [->|[[->| ->] [[->| ->]|[_ ->]]]]; reflexivity. Qed.
  Lemma tsame_is t t' x : tsame t t' -> x <> document -> x <> block_quote -> x <> item -> ntype_eqb t' x = ntype_eqb t x.
  Proof. intros [->|[[->| ->] [[->| ->]|[_ ->]]]]; destruct x; (reflexivity || congruence). Qed.
  (** [item] is only ever put into a list *)
  Definition fits (tag : ntype) (p : parser) : Prop := tag <> item \/ (exists f, hd_error (p_stack p) = Some f /\ f_type f = list_).
  Lemma make_room_sim tag : forall f f' p q, f <= f' -> R1 p q -> fits tag p -> rrel R1 (make_room f tag p) (make_room f' tag q).
  Proof.
    induction f as [|f IH]; intros f' p q Hf H Hi; [exact I|]. destruct f' as [|f']; [lia|]. cbn [make_room].
    eapply rrel_bind with (R := fun x y => (frel x y \/ brel x y) /\ hd_error (p_stack p) = Some x).
    { pose proof (tip_sim p q H) as G. unfold tip in *. destruct (hd_error (p_stack p)); cbn [of_option rrel] in *; [|exact G]. destruct G as (b & -> & G). eauto. }
    intros t t' [Ht Et]. pose proof (fb_type _ _ Ht) as Es. rewrite (tsame_contain _ _ tag Es).
    destruct (can_contain (f_type t) tag) as [ok|e] eqn:Ec; cbn [bind]; [|apply rrel_err]. destruct ok; [apply rrel_ok, H|].
    assert (Hn : tag <> item).
    { destruct Hi as [Hi|(g & Eg & Eg2)]; [exact Hi|]. rewrite Eg in Et. injection Et as ->. rewrite Eg2 in Ec. intros ->. discriminate. }
    assert (Hl : 2 <= length (p_stack p)).
    { pose proof (r_stack _ _ (r_0 _ _ H)) as Hs. destruct Hs as [b b' e Hb He|g g' st st' Hg Hs]; cbn [hd_error length] in *.
      - injection Et as <-. apply brel_type in Hb as [[E|E] _]; rewrite E in Ec; cbn in Ec; destruct tag; cbn in Ec; congruence.
      - apply srel_len in Hs. lia. }
    eapply rrel_bind; [apply finalize_tip_sim; [exact H|exact Hl|]|].
    - rewrite (r_num _ _ (r_0 _ _ H)). pose proof (r_num1 _ _ (r_0 _ _ H)). lia.
    - intros p' q' H'. apply IH; [lia|exact H'|left; exact Hn].
  Qed.
  Definition tip_is (t : ntype) (p : parser) : Prop := exists f, hd_error (p_stack p) = Some f /\ f_type f = t.
  Lemma add_child_sim tag o o' p q : R1 p q -> fits tag p -> o' = o + dc ->
    rrel (fun x y => R1 x y /\ exists st, p_stack x = F (new_node tag (Some (p_line_number x, o + 1, (0, 0)))) [] :: st) (add_child tag o p) (add_child tag o' q).
  Proof.
    intros H Hi ->. unfold add_child. pose proof (srel_len _ _ (r_stack _ _ (r_0 _ _ H))) as [El _].
    eapply rrel_bind; [apply make_room_sim; [rewrite El; lia|exact H|exact Hi]|]. intros p1 q1 H1. apply rrel_ok. split; [|eexists; reflexivity].
    apply r1_stack; [exact H1|]. constructor; [|apply H1]. split; [|constructor]. cbn [f_data]. rewrite (r_num _ _ (r_0 _ _ H1)).
    eexists. split; [reflexivity|]. cbn. repeat split; auto. lia.
  Qed.
  Lemma close_loop_sim : forall f f' p q, f <= f' -> R1 p q -> p_all_closed p = false -> rrel (fun x y => R1 x y) (close_loop f p) (close_loop f' q).
  Proof.
    induction f as [|f IH]; intros f' p q Hf H Ha.
    - cbn [close_loop]. destruct (Nat.leb_spec (length (p_stack p)) (p_matched p)); [|exact I]. pose proof (srel_len _ _ (r_stack _ _ (r_0 _ _ H))) as [El _].
      destruct (r_matched _ _ (r_0 _ _ H) Ha) as [Em _]. destruct f'; cbn [close_loop]; (destruct (Nat.leb_spec (length (p_stack q)) (p_matched q)); [apply rrel_ok, H|lia]).
    - destruct f' as [|f']; [lia|]. cbn [close_loop]. pose proof (srel_len _ _ (r_stack _ _ (r_0 _ _ H))) as [El _]. destruct (r_matched _ _ (r_0 _ _ H) Ha) as [Em Em1].
      rewrite El, Em. destruct (Nat.leb_spec (length (p_stack p)) (p_matched p)); destruct (Nat.leb_spec (length (p_stack p) + dd) (p_matched p + dd)); try lia; [apply rrel_ok, H|].
      pose proof (finalize_tip_sim (p_line_number p - 1) (p_line_number q - 1) p q H) as G.
      assert (Gl : 2 <= length (p_stack p)) by lia. specialize (G Gl). rewrite (r_num _ _ (r_0 _ _ H)) in G |- *. pose proof (r_num1 _ _ (r_0 _ _ H)). specialize (G ltac:(lia)).
      destruct (finalize_tip (p_line_number p - 1) p) as [p'|e] eqn:E; [|destruct e; cbn in G |- *; try rewrite G; auto].
      destruct G as (q' & -> & G). cbn [bind]. apply IH; [lia|exact G|].
      clear -E Ha. unfold finalize_tip in E. destruct (p_stack p) as [|fr st]; [discriminate|].
      assert (Hat : forall t x, p_all_closed (attach t x) = p_all_closed x) by (intros t x; unfold attach; destruct (p_stack x); reflexivity).
      destruct (of_option TypeError _) as [[sp0 ?]|]; [|discriminate]. cbn [bind] in E.
      destruct (n_t _); try discriminate; try (injection E as <-; rewrite Hat; exact Ha).
      + destruct (finalize_list _ _). injection E as <-. rewrite Hat. exact Ha.
      + unfold finalize_paragraph in E. destruct (of_option TypeError _) as [c|]; [|discriminate]. cbn [bind] in E. unfold strip_refs in E.
        destruct (ref_loop _ _ _ _ _) as [[[[c1 f1] s1] rm1]|]; [|discriminate]. cbn [bind] in E. injection E as <-. destruct (_ && _); [exact Ha|rewrite Hat; exact Ha].
      + destruct (finalize_code _) as [d'|]; [|discriminate]. cbn [bind] in E. injection E as <-. rewrite Hat. exact Ha.
      + destruct (finalize_html _) as [d'|]; [|discriminate]. cbn [bind] in E. injection E as <-. rewrite Hat. exact Ha.
  Qed.
  Lemma close_unmatched_sim p q : R1 p q -> rrel R1 (close_unmatched_blocks p) (close_unmatched_blocks q).
  Proof.
    intros H. unfold close_unmatched_blocks. rewrite (r_closed _ _ (r_0 _ _ H)). destruct (p_all_closed p) eqn:Ea; [apply rrel_ok, H|].
    eapply rrel_bind; [apply close_loop_sim; [|exact H|exact Ea]|].
    - pose proof (srel_len _ _ (r_stack _ _ (r_0 _ _ H))). lia.
    - intros p1 q1 H1. apply rrel_ok, r1_closed, H1.
  Qed.

  (** *** Adding a line, continuing a block *)
  Lemma add_line_sim p q : R1 p q -> (forall f, hd_error (p_stack p) = Some f -> ~ bt (f_type f)) ->
    rrel R1 (add_line p) (add_line q).
  Proof.
    intros H Hn. unfold add_line. unfold tip. pose proof (r_stack _ _ (r_0 _ _ H)) as Hs. inversion Hs as [b b' e Hb He E1 E2|f f' st st' Hf Hs' E1 E2].
    { exfalso. apply (Hn b); [rewrite <- E1; reflexivity|]. apply (brel_type _ _ Hb). }
    cbn [hd_error of_option bind]. destruct Hf as [Hd Hk]. rewrite (drel_field n_string_content _ _ ltac:(reflexivity) Hd).
    destruct (n_string_content (f_data f)) as [sc|]; cbn [of_option bind]; [|apply rrel_err].
    rewrite (r_pct _ _ (r_0 _ _ H)).
    assert (HP : exists p1 q1 pad, (if p_pct p then (set_p_offset (S (p_offset p)) p, repeat SP (4 - p_column p mod 4)) else (p, [])) = (p1, pad) /\
                 (if p_pct p then (set_p_offset (S (p_offset q)) q, repeat SP (4 - p_column q mod 4)) else (q, [])) = (q1, pad) /\ R1 p1 q1 /\ p_stack p1 = f :: st /\ p_stack q1 = f' :: st').
    { destruct (p_pct p) eqn:Ep; [|do 3 eexists; split; [reflexivity|]; split; [reflexivity|]; auto].
      destruct (r_pctz _ _ (r_0 _ _ H)) as [E|E]; [|congruence].
      do 3 eexists. split; [reflexivity|]. rewrite (r_col _ _ (r_0 _ _ H)), E, Nat.add_0_r. split; [reflexivity|]. split; [|auto].
      destruct H as [H H1 H2 H3 H4 H5]. constructor; [|assumption..]. r0 H. rewrite r_off0. reflexivity. }
    destruct HP as (p1 & q1 & pad & -> & -> & H1 & F1 & F2). rewrite (r_rest_offset _ _ (r_0 _ _ H1)).
    unfold on_tip. rewrite F1, F2. apply rrel_ok, r1_stack; [exact H1|]. constructor; [|exact Hs']. split; [|exact Hk].
    apply (drel_set (set_n_string_content (Some (sc ++ pad ++ rest_offset p1 ++ [LF])))); [reflexivity..|exact Hd].
  Qed.
  Lemma continue_sim d d' h p q : drel d d' -> R1 p q -> 2 <= length (p_stack p) -> rrel bprel (continue_ d h p) (continue_ d' h q).
  Proof.
    intros Hd H Hl. unfold continue_. rewrite (drel_type _ _ Hd). pose proof (r_0 _ _ H) as H0.
    rewrite (r_indented _ _ H), (r_indent _ _ H), (r_blank _ _ H), (r_peek_nonspace _ _ H).
    destruct (n_t d); try apply rrel_err; try (apply rrel_ok; split; [reflexivity|exact H]).
    - destruct (negb _ && _); [|apply rrel_ok; split; [reflexivity|exact H]]. apply rrel_ok. split; [reflexivity|]. cbn [snd].
      pose proof (advance_offset_sim 1 false _ _ (advance_next_nonspace_sim _ _ H)) as H1. rewrite (r_peek_offset _ _ (r_0 _ _ H1)).
      destruct (is_space_or_tab _); [apply advance_offset_sim, H1|exact H1].
    - destruct (p_blank p); [destruct h; apply rrel_ok; (split; [reflexivity|]); [apply advance_next_nonspace_sim, H|exact H]|].
      assert (Ei : item_indent d' = item_indent d) by (unfold item_indent; rewrite (drel_field n_list_data d d' ltac:(reflexivity) Hd); reflexivity).
      rewrite Ei. eapply rrel_bind; [apply rrel_eq|]. intros n ? <-. destruct (Nat.leb n _); apply rrel_ok; (split; [reflexivity|]); [apply advance_offset_sim, H|exact H].
    - rewrite (drel_field n_is_fenced d d'), (drel_field n_fence_char d d'), (drel_field n_fence_length d d'), (drel_field n_fence_offset d d') by (reflexivity || exact Hd).
      destruct (n_is_fenced d).
      + rewrite (r_rest_nonspace _ _ H), (r_nn _ _ H), (r_length _ _ H0).
        replace (Nat.leb (p_next_nonspace p + dc + 1) (length (p_line p) + dc)) with (Nat.leb (p_next_nonspace p + 1) (length (p_line p))) by lia.
        destruct (if Nat.leb (p_indent p) 3 && _ && _ then _ else None) as [m|].
        * destruct (Nat.leb (n_fence_length d) _).
          -- eapply rrel_bind; [apply finalize_tip_sim; [exact H|exact Hl|apply (r_num _ _ H0)]|]. intros p1 q1 H1. apply rrel_ok. split; [reflexivity|exact H1].
          -- eapply rrel_bind; [apply rrel_eq|]. intros i ? <-. apply rrel_ok. split; [reflexivity|]. apply skip_fence_offset_sim, H.
        * eapply rrel_bind; [apply rrel_eq|]. intros i ? <-. apply rrel_ok. split; [reflexivity|]. apply skip_fence_offset_sim, H.
      + destruct (Nat.leb CODE_INDENT _); [apply rrel_ok; split; [reflexivity|apply advance_offset_sim, H]|].
        destruct (p_blank p); apply rrel_ok; (split; [reflexivity|]); [apply advance_next_nonspace_sim, H|exact H].
    - rewrite (drel_field n_html_block_type d d') by (reflexivity || exact Hd). eapply rrel_bind; [apply rrel_eq|]. intros ty ? <-.
      destruct (_ && _); apply rrel_ok; (split; [reflexivity|exact H]).
  Qed.
  (** [continue_] keeps the stack unless it closes the block *)
  Lemma continue_stack d h p rv p' : continue_ d h p = Ok (rv, p') -> rv <> CDone -> p_stack p' = p_stack p.
  Proof.
    assert (A : forall n c x, p_stack (advance_offset n c x) = p_stack x).
    { intros n c x. destruct (advance_offset_mv n c x) as (a & b & e & -> & _). reflexivity. }
    assert (S : forall i x, p_stack (skip_fence_offset i x) = p_stack x).
    { intros i x. destruct (skip_fence_offset_mv i x) as (a & b & e & -> & _). reflexivity. }
    unfold continue_. intros E Hr.
    destruct (n_t d); try discriminate; try (injection E as <- <-; reflexivity).
    - destruct (negb _ && _); injection E as <- <-; [|reflexivity]. destruct (is_space_or_tab _); rewrite ?A; reflexivity.
    - destruct (p_blank p); [destruct h; injection E as <- <-; reflexivity|]. destruct (item_indent d); [|discriminate]. cbn [bind] in E. destruct (Nat.leb _ _); injection E as <- <-; rewrite ?A; reflexivity.
    - destruct (n_is_fenced d).
      + match type of E with context [match ?x with Some _ => _ | None => _ end] => destruct x as [m|] end.
        * destruct (Nat.leb (n_fence_length d) _).
          -- destruct (finalize_tip _ _); [|discriminate]. cbn [bind] in E. injection E as <- <-. congruence.
          -- destruct (n_fence_offset d); [|discriminate]. cbn [of_option bind] in E. injection E as <- <-. apply S.
        * destruct (n_fence_offset d); [|discriminate]. cbn [of_option bind] in E. injection E as <- <-. apply S.
      + destruct (Nat.leb CODE_INDENT _); [injection E as <- <-; apply A|]. destruct (p_blank p); injection E as <- <-; reflexivity.
    - destruct (n_html_block_type d); [|discriminate]. cbn [of_option bind] in E. destruct (_ && _); injection E as <- <-; reflexivity.
  Qed.
  Definition orel (x y : option nat) : Prop := match x, y with Some a, Some b => b = a + dd | None, None => True | _, _ => False end.
  Lemma descend_sim : forall path path' depth p q, Forall2 frel path path' -> R0 p q -> (path <> [] -> 2 <= length (p_stack p)) ->
    rrel (fun x y => orel (fst x) (fst y) /\ R0 (snd x) (snd y) /\ (path <> [] -> R1 (snd x) (snd y)) /\ (fst x = Some depth -> path = [] -> snd x = p) /\ (match fst x with Some n => depth <= n | None => True end))
      (descend path depth p) (descend path' (depth + dd) q).
  Proof.
    induction path as [|f path IH]; intros path' depth p q Hp H Hl; inversion Hp as [|? f' ? path1 Hf Hp1]; subst; cbn [descend].
    - apply rrel_ok. cbn [fst snd orel]. split; [reflexivity|]. split; [exact H|]. split; [intros E; destruct E; reflexivity|]. split; [reflexivity|lia].
    - pose proof (find_next_nonspace_sim _ _ H) as H1. destruct Hf as [Hd Hk]. rewrite (Forall2_nil _ _ _ Hk), (Forall2_nil _ _ _ Hp1).
      assert (Hl1 : 2 <= length (p_stack (find_next_nonspace p))).
      { replace (p_stack (find_next_nonspace p)) with (p_stack p); [apply Hl; discriminate|]. unfold find_next_nonspace. destruct (skip_spaces _ _ _). reflexivity. }
      pose proof (continue_sim _ _ (negb (is_nil (f_kids f)) || negb (is_nil path)) _ _ Hd H1 Hl1) as G.
      destruct (continue_ (f_data f) _ _) as [[rv p2]|e] eqn:E; [|destruct e; cbn in G |- *; try rewrite G; auto].
      destruct G as ([rv' q2] & -> & [E2 G]). cbn [fst snd] in E2, G. subst rv'. cbn [bind].
      destruct rv.
      + assert (Hl2 : path <> [] -> 2 <= length (p_stack p2)) by (rewrite (continue_stack _ _ _ _ _ E) by discriminate; auto).
        pose proof (IH path1 (S depth) p2 q2 Hp1 (r_0 _ _ G) Hl2) as G2. change (S depth + dd) with (S (depth + dd)) in G2.
        destruct (descend path (S depth) p2) as [[o p3]|e]; [|exact G2]. destruct G2 as ([o' q3] & E3 & G2). exists (o', q3). split; [exact E3|].
        cbn [fst snd] in *. destruct G2 as (K1 & K2 & K3 & K4 & K5). split; [exact K1|]. split; [exact K2|]. split; [intros _|split; [discriminate|destruct o; [lia|exact I]]].
        destruct path as [|f2 path]; [|apply K3; discriminate]. inversion Hp1; subst. cbn [descend] in E3.
        destruct o as [n|]; [|destruct o'; [destruct K1|discriminate E3]]. injection E3 as <- <-. cbn [orel] in K1. rewrite K4; [exact G| |reflexivity]. f_equal. lia.
      + apply rrel_ok. cbn [fst snd orel]. split; [reflexivity || exact I|]. split; [exact (r_0 _ _ G)|]. split; [intros _; exact G|]. split; [discriminate|auto].
      + apply rrel_ok. cbn [fst snd orel]. split; [reflexivity || exact I|]. split; [exact (r_0 _ _ G)|]. split; [intros _; exact G|]. split; [discriminate|auto].
  Qed.

  (** *** Block starts *)
  Definition not_bottom (p : parser) : Prop := forall f, hd_error (p_stack p) = Some f -> ~ bt (f_type f).
  Lemma on_new_tip_sim (g g' : ndata -> ndata) tag sp st p q : R1 p q -> p_stack p = F (new_node tag sp) [] :: st -> ~ bt tag ->
    (forall d d', drel d d' -> drel (g d) (g' d')) -> rrel R1 (on_tip g p) (on_tip g' q).
  Proof.
    intros H E Hn Hg. apply on_tip_sim; [exact H|intros d d' Hd _; apply Hg, Hd|].
    intros d d' Hb _ _ Eh. rewrite E in Eh. cbn in Eh. injection Eh as <-. destruct Hb as [Hb _]. destruct (Hn Hb).
  Qed.
  Lemma not_bt t : t <> document -> t <> block_quote -> ~ bt t.
  Proof. intros H1 H2 [H|H]; congruence. Qed.
  Lemma start_block_quote_sim p q : R1 p q -> rrel bprel (start_block_quote p) (start_block_quote q).
  Proof.
    intros H. unfold start_block_quote. rewrite (r_indented _ _ H), (r_peek_nonspace _ _ H).
    destruct (negb _ && _); [|apply rrel_ok; split; [reflexivity|exact H]].
    pose proof (advance_offset_sim 1 false _ _ (advance_next_nonspace_sim _ _ H)) as H1. rewrite (r_peek_offset _ _ (r_0 _ _ H1)).
    eapply rrel_bind; [apply close_unmatched_sim; destruct (is_space_or_tab _); [apply advance_offset_sim, H1|exact H1]|].
    intros p3 q3 H3. eapply rrel_bind; [apply add_child_sim; [exact H3|left; discriminate|apply (r_nn _ _ H3)]|]. intros p4 q4 [H4 _]. apply rrel_ok. split; [reflexivity|exact H4].
  Qed.
  Lemma start_atx_sim p q : R1 p q -> rrel bprel (start_atx_heading p) (start_atx_heading q).
  Proof.
    intros H. unfold start_atx_heading. rewrite (r_indented _ _ H), (r_rest_nonspace _ _ H). destruct (p_indented p); [apply rrel_ok; split; [reflexivity|exact H]|].
    destruct (re_search reATXHeadingMarker _) as [m|]; [|apply rrel_ok; split; [reflexivity|exact H]].
    eapply rrel_bind; [apply close_unmatched_sim, advance_offset_sim, advance_next_nonspace_sim, H|]. intros p2 q2 H2.
    eapply rrel_bind; [apply add_child_sim; [exact H2|left; discriminate|apply (r_nn _ _ H2)]|]. intros p3 q3 [H3 [st E3]].
    eapply rrel_bind.
    - eapply on_new_tip_sim; [exact H3|exact E3|apply not_bt; discriminate|]. intros d d' Hd. rewrite (r_rest_offset _ _ (r_0 _ _ H3)).
      apply (drel_set (fun d => set_n_string_content (Some (atx_content (rest_offset p3))) (set_n_level (Some (length (strip (rm_group m)))) d))); [reflexivity..|exact Hd].
    - intros p4 q4 H4. apply rrel_ok. split; [reflexivity|]. apply advance_to_end_sim, H4.
  Qed.
  Lemma start_fence_sim p q : R1 p q -> rrel bprel (start_fenced_code p) (start_fenced_code q).
  Proof.
    intros H. unfold start_fenced_code. rewrite (r_indented _ _ H), (r_rest_nonspace _ _ H). destruct (p_indented p); [apply rrel_ok; split; [reflexivity|exact H]|].
    destruct (re_search reCodeFence _) as [m|]; [|apply rrel_ok; split; [reflexivity|exact H]].
    eapply rrel_bind; [apply close_unmatched_sim, H|]. intros p2 q2 H2.
    eapply rrel_bind; [apply add_child_sim; [exact H2|left; discriminate|apply (r_nn _ _ H2)]|]. intros p3 q3 [H3 [st E3]].
    eapply rrel_bind; [apply rrel_eq|]. intros c ? <-. eapply rrel_bind.
    - eapply on_new_tip_sim; [exact H3|exact E3|apply not_bt; discriminate|]. intros d d' Hd. rewrite (r_indent _ _ H3).
      apply (drel_set (fun d => set_n_fence_offset (Some (p_indent p3)) (set_n_fence_char (Some c) (set_n_fence_length (length (rm_group m)) (set_n_is_fenced true d))))); [reflexivity..|exact Hd].
    - intros p4 q4 H4. apply rrel_ok. split; [reflexivity|]. apply advance_offset_sim, advance_next_nonspace_sim, H4.
  Qed.
  Lemma start_html_sim t t' p q : tsame t t' -> R1 p q -> rrel bprel (start_html_block t p) (start_html_block t' q).
  Proof.
    intros Ht H. unfold start_html_block. rewrite (r_indented _ _ H), (r_peek_nonspace _ _ H), (r_rest_nonspace _ _ H), (tsame_is t t' paragraph Ht) by discriminate.
    destruct (negb _ && _); [|apply rrel_ok; split; [reflexivity|exact H]].
    destruct (html_type _ _) as [ty|]; [|apply rrel_ok; split; [reflexivity|exact H]].
    eapply rrel_bind; [apply close_unmatched_sim, H|]. intros p2 q2 H2.
    eapply rrel_bind; [apply add_child_sim; [exact H2|left; discriminate|apply (r_off _ _ (r_0 _ _ H2))]|]. intros p3 q3 [H3 [st E3]].
    eapply rrel_bind.
    - eapply on_new_tip_sim; [exact H3|exact E3|apply not_bt; discriminate|]. intros d d' Hd. apply (drel_set (set_n_html_block_type (Some ty))); [reflexivity..|exact Hd].
    - intros p4 q4 H4. apply rrel_ok. split; [reflexivity|exact H4].
  Qed.
  Lemma strip_refs_stack c p c' f p' : strip_refs c p = Ok (c', f, p') -> p_stack p' = p_stack p.
  Proof.
    unfold strip_refs. destruct (ref_loop _ _ _ _ _) as [[[[c1 f1] s1] rm1]|]; [|discriminate]. cbn [bind]. intros E. injection E as <- <- <-. reflexivity.
  Qed.
  Lemma start_setext_sim t t' p q : tsame t t' -> R1 p q -> rrel bprel (start_setext_heading t p) (start_setext_heading t' q).
  Proof.
    intros Ht H. unfold start_setext_heading. rewrite (r_indented _ _ H), (r_rest_nonspace _ _ H), (tsame_is t t' paragraph Ht) by discriminate.
    destruct (negb _ && _); [|apply rrel_ok; split; [reflexivity|exact H]].
    destruct (re_search reSetextHeadingLine _) as [m|]; [|apply rrel_ok; split; [reflexivity|exact H]].
    eapply rrel_bind; [apply close_unmatched_sim, H|]. intros p1 q1 H1. unfold tip.
    pose proof (r_stack _ _ (r_0 _ _ H1)) as Hs. inversion Hs as [b b' e Hb He E1 E2|f f' st st' Hf Hs' E1 E2]; cbn [hd_error of_option bind].
    - pose proof Hb as ((B1 & B2 & B3) & (B1' & B2' & B3') & _). rewrite B3, B3'. cbn [of_option bind].
      change (strip_refs [] p1) with (@Ok (str * bool * parser) ([], false, set_p_ip (p_ip p1) (set_p_refmap (p_refmap p1) p1))).
      change (strip_refs [] q1) with (@Ok (str * bool * parser) ([], false, set_p_ip (p_ip q1) (set_p_refmap (p_refmap q1) q1))).
      cbn [bind is_nil]. rewrite (r_refmap _ _ (r_0 _ _ H1)). eapply rrel_bind; [apply on_tip_sim; [apply r1_refs, H1| |]|].
      + intros d d' Hd _. apply (drel_set (set_n_string_content (Some []))); [reflexivity..|exact Hd].
      + intros d d' D1 D2 D3 _. split; [|split; [|split; [|split; reflexivity]]].
        * destruct D1 as (? & ? & ?). repeat split; assumption.
        * destruct D2 as (? & ? & ?). repeat split; assumption.
        * intros X. rewrite (D3 X). reflexivity.
      + intros p3 q3 H3. apply rrel_ok. split; [reflexivity|exact H3].
    - destruct Hf as [Hd Hk]. rewrite (drel_field n_string_content _ _ ltac:(reflexivity) Hd).
      eapply rrel_bind; [apply rrel_eq|]. intros c ? <-. pose proof (strip_refs_sim c p1 q1 H1) as G.
      destruct (strip_refs c p1) as [[[c1 f1] p2]|e] eqn:Er; [|destruct e; cbn in G |- *; try rewrite G; auto].
      destruct G as ([[c2 f2] q2] & Eq & [G1 H2]). cbn [fst snd] in G1, H2. injection G1 as -> ->. rewrite Eq. cbn [bind].
      destruct (is_nil c1) eqn:En.
      + destruct c1; [|discriminate]. eapply rrel_bind; [apply on_tip_sim; [exact H2| |]|].
        * intros d d' Hd' _. apply (drel_set (set_n_string_content (Some []))); [reflexivity..|exact Hd'].
        * intros d d' D1 D2 D3 _. split; [|split; [|split; [|split; reflexivity]]].
          -- destruct D1 as (? & ? & ?). repeat split; assumption.
          -- destruct D2 as (? & ? & ?). repeat split; assumption.
          -- intros X. rewrite (D3 X). reflexivity.
        * intros p3 q3 H3. apply rrel_ok. split; [reflexivity|exact H3].
      + eapply rrel_bind; [apply rrel_eq|]. intros x ? <-. apply rrel_ok. split; [reflexivity|]. cbn [snd]. apply advance_to_end_sim, r1_stack; [exact H2|].
        apply strip_refs_stack in Er, Eq. rewrite Er, Eq, <- E1, <- E2. cbn [tl]. constructor; [|exact Hs']. split; [|constructor]. cbn [f_data].
        destruct Hd as (sp & -> & Hsp). exists sp. split; [reflexivity|exact Hsp].
  Qed.
  Lemma start_thematic_sim p q : R1 p q -> rrel bprel (start_thematic_break p) (start_thematic_break q).
  Proof.
    intros H. unfold start_thematic_break. rewrite (r_indented _ _ H), (r_rest_nonspace _ _ H). destruct (negb _ && _); [|apply rrel_ok; split; [reflexivity|exact H]].
    eapply rrel_bind; [apply close_unmatched_sim, H|]. intros p2 q2 H2.
    eapply rrel_bind; [apply add_child_sim; [exact H2|left; discriminate|apply (r_nn _ _ H2)]|]. intros p3 q3 [H3 _]. apply rrel_ok. split; [reflexivity|apply advance_to_end_sim, H3].
  Qed.
  Lemma marker_spaces_sim : forall f c c' p q, c' = c + dc -> R1 p q -> rrel R1 (marker_spaces f c p) (marker_spaces f c' q).
  Proof.
    induction f as [|f IH]; intros c c' p q -> H; cbn [marker_spaces]; [exact I|]. pose proof (advance_offset_sim 1 true _ _ H) as H1.
    rewrite (r_col _ _ (r_0 _ _ H1)), (r_peek_offset _ _ (r_0 _ _ H1)). replace (p_column (advance_offset 1 true p) + dc - (c + dc)) with (p_column (advance_offset 1 true p) - c) by lia.
    destruct (_ && _); [apply IH; [reflexivity|exact H1]|apply rrel_ok, H1].
  Qed.
  Lemma parse_list_marker_sim t t' p q : tsame t t' -> R1 p q -> rrel bprel (parse_list_marker t p) (parse_list_marker t' q).
  Proof.
    intros Ht H. unfold parse_list_marker. rewrite (tsame_is t t' paragraph Ht) by discriminate. rewrite (r_indent _ _ H), (r_rest_nonspace _ _ H).
    destruct (Nat.leb 4 _); [apply rrel_ok; split; [reflexivity|exact H]|]. destruct (list_marker _ _ _) as [[m data]|]; [|apply rrel_ok; split; [reflexivity|exact H]].
    rewrite (r_nn _ _ H). replace (p_next_nonspace p + dc + length m) with (p_next_nonspace p + length m + dc) by lia.
    rewrite (r_peek p q _ (r_0 _ _ H)), (r_skip p q _ (r_0 _ _ H)).
    destruct (negb _); [apply rrel_ok; split; [reflexivity|exact H]|]. destruct (_ && _); [apply rrel_ok; split; [reflexivity|exact H]|].
    pose proof (advance_offset_sim (length m) true _ _ (advance_next_nonspace_sim _ _ H)) as H1.
    set (p1 := advance_offset (length m) true (advance_next_nonspace p)) in *. set (q1 := advance_offset (length m) true (advance_next_nonspace q)) in *.
    eapply rrel_bind; [apply marker_spaces_sim; [apply (r_col _ _ (r_0 _ _ H1))|exact H1]|]. intros p2 q2 H2.
    rewrite (r_peek_offset _ _ (r_0 _ _ H2)), (r_col _ _ (r_0 _ _ H2)), (r_col _ _ (r_0 _ _ H1)).
    replace (p_column p2 + dc - (p_column p1 + dc)) with (p_column p2 - p_column p1) by lia.
    destruct (_ || _).
    - assert (H3 : R1 (set_p_offset (p_offset p1) (set_p_column (p_column p1) p2)) (set_p_offset (p_offset q1) (set_p_column (p_column p1 + dc) q2))).
      { destruct H2 as [H2 K1 K2 K3 K4 K5]. constructor; [|assumption..]. r0 H2. apply (r_off _ _ (r_0 _ _ H1)). }
      rewrite (r_peek_offset _ _ (r_0 _ _ H3)). apply rrel_ok. split; [reflexivity|]. cbn [snd]. destruct (is_space_or_tab _); [apply advance_offset_sim, H3|exact H3].
    - apply rrel_ok. split; [reflexivity|exact H2].
  Qed.
  Lemma drel_list_data ld d d' : drel d d' -> drel (set_n_list_data ld d) (set_n_list_data ld d').
  Proof. apply drel_set; reflexivity. Qed.
  Lemma start_list_sim t t' p q : tsame t t' -> R1 p q -> rrel bprel (start_list_item t p) (start_list_item t' q).
  Proof.
    intros Ht H. unfold start_list_item. rewrite (r_indented _ _ H), (tsame_is t t' list_ Ht) by discriminate.
    destruct (_ || _); [|apply rrel_ok; split; [reflexivity|exact H]].
    eapply rrel_bind; [apply parse_list_marker_sim; [exact Ht|exact H]|]. intros [[data|] p1] [? q1] [E H1]; cbn [fst snd] in E, H1; subst; [|apply rrel_ok; split; [reflexivity|exact H1]].
    eapply rrel_bind; [apply close_unmatched_sim, H1|]. intros p2 q2 H2.
    unfold tip. pose proof (r_stack _ _ (r_0 _ _ H2)) as Hs.
    eapply rrel_bind with (R := fun f f' => (frel f f' \/ brel f f') /\ hd_error (p_stack p2) = Some f).
    { destruct Hs as [b b' e Hb He|f f' st st' Hf Hs]; apply rrel_ok; auto. }
    intros f f' [Hf Ef]. pose proof (fb_type _ _ Hf) as Hft. rewrite (tsame_is _ _ list_ Hft) by discriminate.
    assert (El : f_type f = list_ -> n_list_data (f_data f') = n_list_data (f_data f)).
    { intros Et. destruct Hf as [[Hd _]|Hb]; [apply (drel_field n_list_data _ _ ltac:(reflexivity) Hd)|]. apply brel_type in Hb as [[X|X] _]; rewrite Et in X; discriminate. }
    assert (Ec : (negb (ntype_eqb (f_type f) list_) || negb (lists_match (n_list_data (f_data f')) data))%bool = (negb (ntype_eqb (f_type f) list_) || negb (lists_match (n_list_data (f_data f)) data))%bool).
    { destruct (ntype_eqb (f_type f) list_) eqn:Et; [|reflexivity]. rewrite El; [reflexivity|]. destruct (f_type f); try discriminate Et; reflexivity. }
    rewrite Ec. eapply rrel_bind with (R := fun x y => R1 x y /\ tip_is list_ x).
    - clear Ec. match goal with |- context [if ?x then _ else Ok p2] => destruct x eqn:Eb end.
      + eapply rrel_bind; [apply add_child_sim; [exact H2|left; discriminate|apply (r_nn _ _ H2)]|]. intros p3 q3 [H3 [st E3]].
        pose proof (on_new_tip_sim (set_n_list_data (Some data)) (set_n_list_data (Some data)) _ _ _ _ _ H3 E3 (not_bt list_ ltac:(discriminate) ltac:(discriminate)) (drel_list_data (Some data))) as G.
        unfold on_tip in *. rewrite E3 in *. destruct (p_stack q3).
        * destruct G as (? & G & _). discriminate.
        * destruct G as (y & G & G'). exists y. split; [exact G|]. split; [exact G'|]. eexists. split; reflexivity.
      + apply rrel_ok. split; [exact H2|]. exists f. split; [exact Ef|]. destruct (f_type f); try discriminate Eb; reflexivity.
    - intros p3 q3 [H3 Hl3]. eapply rrel_bind; [apply add_child_sim; [exact H3|right; exact Hl3|apply (r_nn _ _ H3)]|]. intros p4 q4 [H4 [st E4]].
      eapply rrel_bind; [eapply on_new_tip_sim; [exact H4|exact E4|apply not_bt; discriminate|apply drel_list_data]|]. intros p5 q5 H5. apply rrel_ok. split; [reflexivity|exact H5].
  Qed.
  Lemma start_indented_sim p q : R1 p q -> rrel bprel (start_indented_code p) (start_indented_code q).
  Proof.
    intros H. unfold start_indented_code. eapply rrel_bind; [apply tip_sim, H|]. intros f f' Hf. rewrite (r_indented _ _ H), (r_blank _ _ H), (tsame_is _ _ paragraph (fb_type _ _ Hf)) by discriminate.
    destruct (_ && _); [|apply rrel_ok; split; [reflexivity|exact H]].
    eapply rrel_bind; [apply close_unmatched_sim, advance_offset_sim, H|]. intros p2 q2 H2.
    eapply rrel_bind; [apply add_child_sim; [exact H2|left; discriminate|apply (r_off _ _ (r_0 _ _ H2))]|]. intros p3 q3 [H3 _]. apply rrel_ok. split; [reflexivity|exact H3].
  Qed.
  Lemma try_starts_sim l t t' : tsame t t' ->
    Forall (fun g => forall p q, R1 p q -> rrel bprel (g t p) (g t' q)) l -> forall p q, R1 p q -> rrel bprel (try_starts l t p) (try_starts l t' q).
  Proof.
    intros Ht. induction 1 as [|g l Hg _ IH]; intros p q H; cbn [try_starts]; [apply rrel_ok; split; [reflexivity|exact H]|].
    eapply rrel_bind; [apply Hg, H|]. intros [r p1] [r' q1] [E H1]. cbn [fst snd] in E, H1. subst r'. destruct r; [apply IH, H1|apply rrel_ok; split; [reflexivity|exact H1]..].
  Qed.
  Lemma block_starts_sim t t' : tsame t t' -> forall p q, R1 p q -> rrel bprel (try_starts block_starts t p) (try_starts block_starts t' q).
  Proof.
    intros Ht. apply try_starts_sim; [exact Ht|].
    constructor; [intros p q; apply start_block_quote_sim|]. constructor; [intros p q; apply start_atx_sim|]. constructor; [intros p q; apply start_fence_sim|].
    constructor; [intros p q; apply start_html_sim, Ht|]. constructor; [intros p q; apply start_setext_sim, Ht|]. constructor; [intros p q; apply start_thematic_sim|].
    constructor; [intros p q; apply start_list_sim, Ht|]. constructor; [intros p q; apply start_indented_sim|]. constructor.
  Qed.
  Lemma block_at_sim n p q : R0 p q -> 1 <= n <= length (p_stack p) -> rrel (fun f f' => (frel f f' /\ 2 <= n) \/ (brel f f' /\ n = 1)) (block_at n p) (block_at (n + dd) q).
  Proof.
    intros H Hn. unfold block_at. pose proof (r_stack _ _ H) as Hs. pose proof (srel_len _ _ Hs) as [El _]. rewrite El.
    replace (length (p_stack p) + dd - (n + dd)) with (length (p_stack p) - n) by lia.
    destruct (nth_error (p_stack p) (length (p_stack p) - n)) as [f|] eqn:E.
    - destruct (srel_frame _ _ _ _ Hs E) as (f' & -> & [[G1 G2]|[G1 G2]]); apply rrel_ok; [left|right]; (split; [exact G1|lia]).
    - apply nth_error_None in E. lia.
  Qed.
  Lemma starts_loop_sim : forall f f' n p q, f <= f' -> R0 p q -> 1 <= n <= length (p_stack p) ->
    rrel (fun x y => R1 (snd x) (snd y)) (starts_loop f n p) (starts_loop f' (n + dd) q).
  Proof.
    induction f as [|f IH]; intros f' n p q Hf H Hn; [exact I|]. destruct f' as [|f']; [lia|]. cbn [starts_loop].
    pose proof (find_next_nonspace_sim _ _ H) as H1. rewrite (r_indented _ _ H1), (r_rest_nonspace _ _ H1).
    destruct (_ && _); [apply rrel_ok, advance_next_nonspace_sim, H1|].
    assert (Es : p_stack (find_next_nonspace p) = p_stack p) by (unfold find_next_nonspace; destruct (skip_spaces _ _ _); reflexivity).
    eapply rrel_bind; [apply block_at_sim; [apply H1|rewrite Es; exact Hn]|]. intros c c' Hc. assert (Hc' : frel c c' \/ brel c c') by (destruct Hc as [[Hc _]|[Hc _]]; auto).
    eapply rrel_bind; [apply block_starts_sim; [apply fb_type, Hc'|exact H1]|]. intros [r p2] [r' q2] [E H2]. cbn [fst snd] in E, H2. subst r'.
    pose proof (srel_len _ _ (r_stack _ _ (r_0 _ _ H2))) as [El Hl1].
    destruct r; [apply rrel_ok, advance_next_nonspace_sim, H2| |apply rrel_ok, H2].
    rewrite El. apply IH; [lia|apply H2|lia].
  Qed.

  (** *** The rest of a line *)
  Lemma tip_length p f : add_line p = Ok f -> length (p_stack f) = length (p_stack p).
  Proof.
    unfold add_line, tip, on_tip. destruct (p_stack p) as [|t st] eqn:E; [discriminate|]. cbn [hd_error of_option bind]. destruct (n_string_content _); [|discriminate]. cbn [of_option bind].
    destruct (p_pct p); cbn [p_stack set_p_offset]; rewrite E; intros G; injection G as <-; reflexivity.
  Qed.
  Definition blank_frame (b : bool) (fr : frame) : frame := set_f_data (set_n_last_line_blank b (f_data fr)) fr.
  Lemma bdata_blank b d : bdata d -> bdata (set_n_last_line_blank b d).
  Proof. intros (H1 & H2 & H3). repeat split; assumption. Qed.
  Lemma bdata_blank' b d : bdata' d -> bdata' (set_n_last_line_blank b d).
  Proof. intros (H1 & H2 & H3). repeat split; assumption. Qed.
  Lemma erel_blank b e : erel e -> erel (map (blank_frame b) e).
  Proof.
    intros [[-> E]|[(d & -> & E1 & E2 & E3)|(l & d & -> & E1 & E2 & E3 & E4 & E5)]]; [left; auto|right; left; eexists; split; [reflexivity|]; auto|].
    right. right. do 2 eexists. split; [reflexivity|]. auto 10.
  Qed.
  Lemma frel_blank b f f' : frel f f' -> frel (blank_frame b f) (blank_frame b f').
  Proof. intros [H1 H2]. split; [|exact H2]. apply (drel_set (set_n_last_line_blank b)); [reflexivity..|exact H1]. Qed.
  Lemma brel_blank b b' f f' : brel f f' -> (ex -> b' = b) -> brel (blank_frame b f) (blank_frame b' f').
  Proof.
    intros (H1 & H2 & H3 & H4 & H5) E. split; [apply bdata_blank, H1|]. split; [apply bdata_blank', H2|]. split; [exact H3|]. split; [|exact H5].
    intros X. unfold blank_frame. cbn [f_data set_f_data]. rewrite (H4 X), (E X). reflexivity.
  Qed.
  Lemma srel_blank b st st' : srel st st' -> srel (map (blank_frame b) st) (map (blank_frame b) st').
  Proof.
    induction 1 as [f f' e Hb He|f f' st st' Hf Hs IH]; cbn [map]; constructor; auto using erel_blank, frel_blank. apply brel_blank; auto.
  Qed.
  Lemma r1_blank p q st st' : R1 p q -> srel st st' -> R1 (set_p_stack st p) (set_p_stack st' q).
  Proof. apply r1_stack. Qed.
  Lemma frel_first_line f f' : frel f f' ->
    match n_sourcepos (f_data f), n_sourcepos (f_data f') with Some (l, _, _), Some (l', _, _) => l' = l + dl | None, None => True | _, _ => False end.
  Proof.
    intros [H _]. apply drel_pos in H. destruct (n_sourcepos (f_data f)) as [[[? ?] [? ?]]|], (n_sourcepos (f_data f')) as [[[? ?] [? ?]]|]; cbn [posrel] in H; try contradiction; [apply H|exact I].
  Qed.
  (** the part of [add_text] after the blank flags are set *)
  Definition add_text_rest (c : frame) (p2 : parser) : res parser :=
    let t := f_type c in
    let* acc := accepts_lines t in
    if acc
    then
      let* p3 := add_line p2 in
      if ntype_eqb t html_block
      then
        let* ty := of_option AttributeError (n_html_block_type (f_data c)) in
        if Nat.leb 1 ty && Nat.leb ty 5 && re_test (reHtmlBlockClose ty) (rest_offset p3)
        then finalize_tip (p_line_number p3) p3
        else Ok p3
      else Ok p3
    else if Nat.ltb (p_offset p2) (length (p_line p2)) && negb (p_blank p2)
    then
      let* p3 := add_child paragraph (p_offset p2) p2 in
      add_line (advance_next_nonspace p3)
    else Ok p2.
  Lemma add_para_sim p q : R1 p q ->
    rrel R1 (if Nat.ltb (p_offset p) (length (p_line p)) && negb (p_blank p) then let* p3 := add_child paragraph (p_offset p) p in add_line (advance_next_nonspace p3) else Ok p)
            (if Nat.ltb (p_offset q) (length (p_line q)) && negb (p_blank q) then let* p3 := add_child paragraph (p_offset q) q in add_line (advance_next_nonspace p3) else Ok q).
  Proof.
    intros H. pose proof (r_0 _ _ H) as H0. rewrite (r_off _ _ H0), (r_length _ _ H0), (r_blank _ _ H).
    replace (Nat.ltb (p_offset p + dc) (length (p_line p) + dc)) with (Nat.ltb (p_offset p) (length (p_line p))) by lia.
    destruct (_ && _); [|apply rrel_ok, H]. eapply rrel_bind; [apply add_child_sim; [exact H|left; discriminate|reflexivity]|]. intros p3 q3 [H3 [st E3]].
    apply add_line_sim; [apply advance_next_nonspace_sim, H3|]. intros f Ef. change (hd_error (p_stack p3) = Some f) in Ef. rewrite E3 in Ef. injection Ef as <-. intros [X|X]; discriminate.
  Qed.
  Lemma add_text_rest_sim c c' d p q : R1 p q -> frel c c' \/ brel c c' ->
    p_stack p = d :: tl (p_stack p) -> f_type d = f_type c ->
    rrel R1 (add_text_rest c p) (add_text_rest c' q).
  Proof.
    intros H Hc Hd Et. unfold add_text_rest. pose proof (fb_type _ _ Hc) as Hts. rewrite (tsame_accepts _ _ Hts). rewrite (tsame_is _ _ html_block Hts) by discriminate.
    destruct (accepts_lines (f_type c)) as [acc|e] eqn:Ea; cbn [bind]; [|apply rrel_err]. destruct acc; [|apply add_para_sim, H].
    assert (Hn : forall f, hd_error (p_stack p) = Some f -> ~ bt (f_type f)).
    { rewrite Hd. intros f Ef. injection Ef as <-. rewrite Et. intros [X|X]; rewrite X in Ea; discriminate. }
    assert (Hl : 2 <= length (p_stack p)).
    { pose proof (r_stack _ _ (r_0 _ _ H)) as Hs. destruct Hs as [b b' e Hb He|f f' st st' Hf Hs]; [|apply srel_len in Hs; cbn; lia].
      exfalso. apply (Hn b eq_refl). apply (brel_type _ _ Hb). }
    pose proof (add_line_sim p q H Hn) as G. destruct (add_line p) as [p3|e] eqn:E3; [|destruct e; cbn in G |- *; try rewrite G; auto].
    destruct G as (q3 & -> & H3). cbn [bind]. destruct (ntype_eqb (f_type c) html_block) eqn:Eh; [|apply rrel_ok, H3].
    assert (Ey : n_html_block_type (f_data c') = n_html_block_type (f_data c)).
    { destruct Hc as [[Hc _]|Hc]; [apply (drel_field n_html_block_type _ _ ltac:(reflexivity) Hc)|]. apply brel_type in Hc as [[X|X] _]; rewrite X in Eh; discriminate. }
    rewrite Ey. eapply rrel_bind; [apply rrel_eq|]. intros ty ? <-. rewrite (r_rest_offset _ _ (r_0 _ _ H3)). destruct (_ && _); [|apply rrel_ok, H3].
    apply finalize_tip_sim; [exact H3|rewrite (tip_length _ _ E3); exact Hl|apply (r_num _ _ (r_0 _ _ H3))].
  Qed.
  Lemma add_text_sim p q : R1 p q -> rrel R1 (add_text p) (add_text q).
  Proof.
    intros H. unfold add_text. eapply rrel_bind; [apply close_unmatched_sim, H|]. intros p1 q1 H1. unfold tip. rewrite (r_blank _ _ H1).
    pose proof (r_stack _ _ (r_0 _ _ H1)) as Hs. inversion Hs as [c c' e Hb He E1 E2|c c' st st' Hf Hs' E1 E2]; cbn [hd_error of_option bind tl].
    - pose proof Hb as ((B1 & B2 & B3) & (B1' & B2' & B3') & B4 & B5 & B6).
      set (kids := if p_blank p1 then mark_last_blank (f_kids c) else f_kids c). set (kids' := if p_blank p1 then mark_last_blank (f_kids c') else f_kids c').
      assert (Hk : krel kids kids') by (unfold kids, kids'; destruct (p_blank p1); [apply mark_last_blank_krel, B4|exact B4]).
      assert (It : ntype_eqb (f_type c) item = false) by (unfold f_type; destruct B1 as [-> | ->]; reflexivity).
      assert (Ct : ntype_eqb (f_type c) code_block = false) by (unfold f_type; destruct B1 as [-> | ->]; reflexivity).
      assert (Ct' : ntype_eqb (f_type c') code_block = false) by (unfold f_type; destruct B1' as [[-> | ->]|[_ ->]]; reflexivity).
      destruct (n_sourcepos (f_data c)) as [[[l cc] ee]|] eqn:Es; [|congruence]. destruct (n_sourcepos (f_data c')) as [[[l' cc'] ee']|] eqn:Es'; [|congruence]. cbn [bind].
      rewrite It, Ct, Ct'. cbn [andb].
      set (b := (p_blank p1 && negb (ntype_eqb (f_type c) block_quote || false || false))%bool).
      match goal with |- context [map (fun fr => set_f_data (set_n_last_line_blank ?x _) _) (F (f_data c') _ :: _)] => set (b' := x) end.
      assert (Hb2 : brel (blank_frame b (F (f_data c) kids)) (blank_frame b' (F (f_data c') kids'))).
      { apply brel_blank; [unfold brel, bdata, bdata'; cbn [f_data f_kids]; rewrite Es, Es'; auto 10|]. intros X. unfold b, b', f_type in *. rewrite (B5 X), It. reflexivity. }
      eapply (add_text_rest_sim c c' (blank_frame b (F (f_data c) kids))); [|right; exact Hb|reflexivity|reflexivity].
      apply r1_stack; [exact H1|]. constructor; [exact Hb2|apply erel_blank, He].
    - set (kids := if p_blank p1 then mark_last_blank (f_kids c) else f_kids c). set (kids' := if p_blank p1 then mark_last_blank (f_kids c') else f_kids c').
      pose proof Hf as [Hd Hk0].
      assert (Hk : Forall2 trel kids kids') by (unfold kids, kids'; destruct (p_blank p1); [apply mark_last_blank_rel, Hk0|exact Hk0]).
      rewrite (frel_type _ _ Hf), (Forall2_nil _ _ _ Hk), (drel_field n_is_fenced _ _ ltac:(reflexivity) Hd). pose proof (frel_first_line _ _ Hf) as Hfl.
      assert (HG : forall b, rrel R1 (add_text_rest c (set_p_stack (map (blank_frame b) (F (f_data c) kids :: st)) p1)) (add_text_rest c' (set_p_stack (map (blank_frame b) (F (f_data c') kids' :: st')) q1))).
      { intros b. eapply (add_text_rest_sim c c' (blank_frame b (F (f_data c) kids))); [|left; exact Hf|reflexivity|reflexivity].
        apply r1_stack; [exact H1|]. cbn [map]. constructor; [|apply srel_blank, Hs']. apply frel_blank. split; assumption. }
      destruct (n_sourcepos (f_data c)) as [[[l cc] ee]|], (n_sourcepos (f_data c')) as [[[l' cc'] ee']|]; try contradiction.
      + cbn [bind]. subst l'. rewrite (r_num _ _ (r_0 _ _ H1)). replace (Nat.eqb (l + dl) (p_line_number p1 + dl)) with (Nat.eqb l (p_line_number p1)) by lia.
        match goal with |- context [map (fun fr => set_f_data (set_n_last_line_blank ?b _) _)] => specialize (HG b) end. unfold add_text_rest in HG. rewrite (frel_type _ _ Hf) in HG. exact HG.
      + destruct (_ && _ && _); [apply rrel_err|]. cbn [bind]. pose proof (r_num1 _ _ (r_0 _ _ H1)) as Hn1. rewrite (r_num _ _ (r_0 _ _ H1)).
        replace (Nat.eqb 0 (p_line_number p1 + dl)) with (Nat.eqb 0 (p_line_number p1)) by lia.
        match goal with |- context [map (fun fr => set_f_data (set_n_last_line_blank ?b _) _)] => specialize (HG b) end. unfold add_text_rest in HG. rewrite (frel_type _ _ Hf) in HG. exact HG.
  Qed.

  (** *** One line *)
  Definition line_end (ln : str) (p : parser) : res parser :=
    let* t := tip p in
    let* p5 := if negb (p_all_closed p) && negb (p_blank p) && ntype_eqb (f_type t) paragraph
               then add_line p
               else add_text p in
    Ok (set_p_last_line_length (length ln) p5).
  Definition line_tail (fuel : nat) (ln : str) (depth : nat) (p : parser) : res parser :=
    let* (_, p4) := starts_loop fuel depth p in line_end ln p4.
  Definition line_rest (fuel : nat) (ln : str) (x : option nat * parser) : res parser :=
    let (matched, p2) := x in
    match matched with
    | None => Ok (set_p_last_line_length (length ln) p2)
    | Some depth =>
        let p3 := set_p_matched depth (set_p_all_closed (Nat.eqb depth (length (p_stack p2))) p2) in
        let* c := block_at depth p3 in
        let* acc := accepts_lines (f_type c) in
        if negb (ntype_eqb (f_type c) paragraph) && acc then line_end ln p3 else line_tail fuel ln depth p3
    end.
  Definition line_start (ln : str) (p : parser) : parser :=
    set_p_line ln (set_p_line_number (S (p_line_number p)) (set_p_pct false (set_p_blank false (set_p_column 0 (set_p_offset 0 p))))).
  Lemma incorporate_line_eq ln0 p : incorporate_line ln0 p =
    let ln := replace_char 0 65533 ln0 in
    let p1 := line_start ln p in
    let* x := descend (tl (rev (p_stack p1))) 1 p1 in line_rest (S (length ln)) ln x.
  Proof.
    unfold incorporate_line. cbn zeta. fold (line_start (replace_char 0 65533 ln0) p). destruct (descend _ _ _) as [[m p2]|e]; [|reflexivity]. cbn [bind]. unfold line_rest.
    destruct m as [n|]; [|reflexivity]. destruct (block_at _ _) as [c|e]; [|reflexivity]. cbn [bind]. destruct (accepts_lines _) as [acc|e]; [|reflexivity]. cbn [bind].
    destruct (_ && acc); [reflexivity|]. unfold line_tail. destruct (starts_loop _ _ _) as [[n1 p4]|e]; reflexivity.
  Qed.
  Lemma r1_len n m p q : Rl n m -> R1 p q -> R1 (set_p_last_line_length n p) (set_p_last_line_length m q).
  Proof. intros Hn [H H1 H2 H3 H4 H5]. constructor; [|assumption..]. r0 H. Qed.
  Lemma r1_match n p q : 1 <= n -> R0 p q ->
    R0 (set_p_matched n (set_p_all_closed (Nat.eqb n (length (p_stack p))) p)) (set_p_matched (n + dd) (set_p_all_closed (Nat.eqb (n + dd) (length (p_stack q))) q)).
  Proof.
    intros Hn H. pose proof (srel_len _ _ (r_stack _ _ H)) as [E _]. rewrite E. r0 H. lia.
  Qed.
  Lemma line_end_sim ln ln' p q : R1 p q -> Rl (length ln) (length ln') -> rrel R1 (line_end ln p) (line_end ln' q).
  Proof.
    intros H Hl. unfold line_end.
    assert (Ht := tip_sim _ _ H). destruct (tip p) as [t|e] eqn:Et; [|destruct e; cbn in Ht |- *; try rewrite Ht; auto].
    destruct Ht as (t' & -> & Ht). cbn [bind]. apply fb_type in Ht. rewrite (tsame_is _ _ paragraph Ht) by discriminate.
    rewrite (r_closed _ _ (r_0 _ _ H)), (r_blank _ _ H). destruct (_ && _ && _) eqn:Ec; (eapply rrel_bind; [|intros p5 q5 H5; apply rrel_ok, r1_len; [exact Hl|exact H5]]).
    - apply add_line_sim; [exact H|]. intros f Ef [X|X]; unfold tip in Et; rewrite Ef in Et; injection Et as ->; rewrite X in Ec; cbn [ntype_eqb] in Ec; rewrite andb_comm in Ec; discriminate.
    - apply add_text_sim, H.
  Qed.
  Lemma line_tail_sim f f' ln ln' n p q : f <= f' -> R0 p q -> 1 <= n <= length (p_stack p) -> Rl (length ln) (length ln') ->
    rrel R1 (line_tail f ln n p) (line_tail f' ln' (n + dd) q).
  Proof.
    intros Hf H Hn Hl. unfold line_tail. eapply rrel_bind; [apply starts_loop_sim; assumption|]. intros [n1 p4] [n2 q4] H4. apply line_end_sim; assumption.
  Qed.
  Lemma line_rest_sim f f' ln ln' x y : f <= f' -> Rl (length ln) (length ln') -> orel (fst x) (fst y) -> R0 (snd x) (snd y) ->
    (fst x <> Some 1 -> R1 (snd x) (snd y)) -> (forall n, fst x = Some n -> 1 <= n <= length (p_stack (snd x))) ->
    rrel R1 (line_rest f ln x) (line_rest f' ln' y).
  Proof.
    destruct x as [m p], y as [m' q]. cbn [fst snd]. intros Hf Hl Hm H0 H1 Hn. unfold line_rest. destruct m as [n|], m' as [n'|]; cbn [orel] in Hm; try contradiction.
    - subst n'. specialize (Hn n eq_refl). pose proof (r1_match n p q ltac:(lia) H0) as H0'.
      set (p3 := set_p_matched n _) in *. set (q3 := set_p_matched (n + dd) _) in *.
      eapply rrel_bind; [apply block_at_sim; [exact H0'|exact Hn]|]. intros c c' Hc.
      assert (Ht : tsame (f_type c) (f_type c')) by (apply fb_type; destruct Hc as [[Hc _]|[Hc _]]; auto).
      rewrite (tsame_accepts _ _ Ht), (tsame_is _ _ paragraph Ht) by discriminate. destruct (accepts_lines (f_type c)) as [acc|e] eqn:Ea; cbn [bind]; [|apply rrel_err].
      destruct (_ && acc) eqn:El; [|apply line_tail_sim; assumption]. apply line_end_sim; [|exact Hl].
      assert (Hn1 : Some n <> Some 1).
      { intros E. injection E as ->. destruct Hc as [[_ Hc]|[Hc _]]; [lia|]. apply brel_type in Hc as [[X|X] _]; rewrite X in Ea; injection Ea as <-; rewrite andb_comm in El; discriminate. }
      destruct (H1 Hn1) as [_ K1 K2 K3 K4 K5]. constructor; assumption.
    - apply rrel_ok, r1_len; [exact Hl|]. apply H1. discriminate.
  Qed.
  Lemma descend_stack : forall path depth p n p', descend path depth p = Ok (Some n, p') -> p_stack p' = p_stack p /\ depth <= n <= depth + length path.
  Proof.
    induction path as [|f path IH]; intros depth p n p' E; cbn [descend] in E.
    - injection E as <- <-. cbn; split; [reflexivity|lia].
    - destruct (continue_ _ _ _) as [[rv p2]|e] eqn:Ec; [|discriminate]. cbn [bind] in E.
      assert (Es : rv <> CDone -> p_stack p2 = p_stack p).
      { intros Hr. rewrite (continue_stack _ _ _ _ _ Ec Hr). unfold find_next_nonspace. destruct (skip_spaces _ _ _). reflexivity. }
      destruct rv; [|injection E as <- <-; split; [apply Es; discriminate|cbn; lia]|discriminate].
      apply IH in E as [E1 E2]. rewrite E1, Es by discriminate. cbn [length]. split; [reflexivity|lia].
  Qed.
  (** the open blocks below the bottom one *)
  Lemma srel_path st st' : srel st st' -> exists up b up' b' e, st = up ++ [b] /\ st' = up' ++ b' :: e /\ Forall2 frel up up' /\ brel b b' /\ erel e.
  Proof.
    induction 1 as [b b' e Hb He|f f' st st' Hf Hs (up & b & up' & b' & e & -> & -> & Hu & Hb & He)].
    - exists [], b, [], b', e. auto.
    - exists (f :: up), b, (f' :: up'), b', e. split; [reflexivity|]. split; [reflexivity|]. auto.
  Qed.
  Lemma Forall2_rev {A B} (R : A -> B -> Prop) l l' : Forall2 R l l' -> Forall2 R (rev l) (rev l').
  Proof. induction 1; cbn [rev]; [constructor|]. apply Forall2_app; [assumption|repeat constructor; assumption]. Qed.
  (** what two states must share between lines *)
  Record RL (p q : parser) : Prop := {
    l_stack : srel (p_stack p) (p_stack q);
    l_num : p_line_number q = p_line_number p + dl;
    l_closed : p_all_closed q = p_all_closed p;
    l_matched : p_all_closed p = false -> p_matched q = p_matched p + dd /\ 1 <= p_matched p;
    l_refmap : p_refmap q = p_refmap p;
    l_lll : Rl (p_last_line_length p) (p_last_line_length q);
    l_smart : Rs (p_smart p) (p_smart q) }.
  Lemma r1_rl p q : R1 p q -> RL p q.
  Proof. intros [[] _ _ _ _ _]. constructor; assumption. Qed.
  (** descending side by side, then the rest of the line *)
  Lemma descend_rest_sim f f' ln ln' up b up' p q : f <= f' -> Rl (length ln) (length ln') -> p_stack p = up ++ [b] -> Forall2 frel up up' -> R0 p q ->
    rrel R1 (let* x := descend (rev up) 1 p in line_rest f ln x) (let* y := descend (rev up') (1 + dd) q in line_rest f' ln' y).
  Proof.
    intros Hf Hl Es Hu H.
    pose proof (descend_sim (rev up) (rev up') 1 p q (Forall2_rev _ _ _ Hu) H) as G.
    assert (Hlen : rev up <> [] -> 2 <= length (p_stack p)).
    { intros Hne. rewrite Es, app_length. destruct up as [|x up]; [destruct (Hne eq_refl)|cbn; lia]. }
    specialize (G Hlen). destruct (descend (rev up) 1 p) as [[m p2]|e] eqn:E; [|destruct e; cbn in G |- *; try rewrite G; auto].
    destruct G as ([m' q2] & -> & K1 & K2 & K3 & K4 & K5). cbn [fst snd] in K1, K2, K3, K4, K5. cbn [bind].
    apply line_rest_sim; cbn [fst snd]; try assumption.
    - intros Hm. destruct (rev up) as [|x l] eqn:Er; [|apply K3; discriminate]. cbn [descend] in E. injection E as <- <-. destruct (Hm eq_refl).
    - intros n ->. apply descend_stack in E as [E1 E2]. rewrite E1, Es, app_length. rewrite rev_length in E2. cbn [length]. lia.
  Qed.

  (** *** The same lines, when nothing is put before them *)
  Lemma incorporate_same ln p q : dc = 0 -> dd = 0 -> (forall n, Rl n n) -> RL p q -> rrel R1 (incorporate_line ln p) (incorporate_line ln q).
  Proof.
    intros Hc Hd HRl H. rewrite !incorporate_line_eq. cbn zeta. set (l := replace_char 0 65533 ln).
    destruct (srel_path _ _ (l_stack _ _ H)) as (up & b & up' & b' & e & E1 & E2 & Hu & Hb & He).
    destruct He as [[-> _]|[(d & _ & _ & _ & X)|(l0 & d & _ & _ & _ & _ & _ & X)]]; [|lia..].
    change (p_stack (line_start l p)) with (p_stack p). change (p_stack (line_start l q)) with (p_stack q). rewrite E1, E2, !rev_app_distr. cbn [rev app tl].
    replace 1 with (1 + dd) at 2 by lia. apply (descend_rest_sim _ _ l l up b up'); [lia|apply HRl|exact E1|exact Hu|].
    destruct H. constructor; cbn [p_stack p_line p_line_number p_offset p_column p_pct p_all_closed p_matched p_refmap p_last_line_length p_smart line_start
     set_p_stack set_p_doc set_p_line set_p_line_number set_p_offset set_p_column set_p_pct set_p_blank]; auto; try lia. exists []. auto.
  Qed.
  Lemma incorporate_lines_same : forall ls p q, dc = 0 -> dd = 0 -> (forall n, Rl n n) -> ls <> [] -> RL p q ->
    rrel R1 (incorporate_lines ls p) (incorporate_lines ls q).
  Proof.
    induction ls as [|l ls IH]; intros p q Hc Hd HRl Hne H; [destruct (Hne eq_refl)|]. cbn [incorporate_lines].
    eapply rrel_bind; [apply incorporate_same; assumption|]. intros p1 q1 H1. destruct ls as [|l2 ls]; [apply rrel_ok, H1|].
    apply IH; auto; [discriminate|apply r1_rl, H1].
  Qed.
  (** the flags that tell which blocks matched are set before they are used *)
  Lemma incorporate_flags ln p a m : length (p_stack p) = 1 -> incorporate_line ln (set_p_matched m (set_p_all_closed a p)) = incorporate_line ln p.
  Proof.
    intros E. rewrite !incorporate_line_eq. cbn zeta. set (l := replace_char 0 65533 ln). destruct (p_stack p) as [|f [|f2 st]] eqn:Es; try discriminate.
    change (p_stack (line_start l (set_p_matched m (set_p_all_closed a p)))) with (p_stack p). change (p_stack (line_start l p)) with (p_stack p). rewrite Es.
    cbn [rev app tl descend bind]. reflexivity.
  Qed.

  (** *** Quoted lines *)
  (** what the marker does to the state *)
  Definition fq (x : parser) : parser :=
    set_p_indented false (set_p_indent 0 (set_p_next_nonspace_column 0 (set_p_next_nonspace 0 (set_p_blank false x)))).
  Lemma quote_mark x l : p_line x = (62 :: 32 :: l)%N -> p_offset x = 0 -> p_column x = 0 -> 
    find_next_nonspace x = fq x /\ rest_nonspace (fq x) = (62 :: 32 :: l)%N /\ peek (p_line (fq x)) (p_next_nonspace (fq x)) = Some 62%N /\
    advance_offset 1 false (advance_next_nonspace (fq x)) = mv 1 1 false (fq x) /\ peek (p_line (mv 1 1 false (fq x))) (p_offset (mv 1 1 false (fq x))) = Some 32%N /\
    advance_offset 1 true (mv 1 1 false (fq x)) = mv 2 2 false (fq x).
  Proof. destruct x as [a1 a2 a3 a4 a5 a6 a7 a8 a9 a10 a11 a12 a13 a14 a15 a16 a17 a18]. cbn [p_line p_offset p_column]. intros -> -> ->. repeat split. Qed.
  Lemma incorporate_quoted ln p q : dc = 2 -> dd = 1 -> (forall n, Rl n (n + 2)) -> ~ In TAB ln -> RL p q ->
    rrel R1 (incorporate_line ln p) (incorporate_line (u "> " ++ ln) q).
  Proof.
    intros Hc Hd HRl Ht H. rewrite !incorporate_line_eq. cbn zeta.
    change (replace_char 0 65533 (u "> " ++ ln)) with (u "> " ++ replace_char 0 65533 ln). set (l := replace_char 0 65533 ln).
    assert (Ht' : ~ In TAB l).
    { unfold l, replace_char. intros G. apply in_map_iff in G as (x & Ex & Hx). destruct (N.eqb x 0); [discriminate|]. subst x. auto. }
    destruct (srel_path _ _ (l_stack _ _ H)) as (up & b & up' & b' & e & E1 & E2 & Hu & Hb & He).
    destruct He as [[_ X]|[(d & -> & D1 & D2 & _)|(l0 & d & _ & _ & _ & _ & _ & X)]]; [lia| |lia]. pose proof Hb as (_ & _ & _ & _ & Bq & _). specialize (Bq Hd).
    change (p_stack (line_start l p)) with (p_stack p). change (p_stack (line_start (u "> " ++ l) q)) with (p_stack q). rewrite E1, E2, !rev_app_distr. cbn [rev app tl].
    remember (line_start (u "> " ++ l) q) as x eqn:Ex.
    assert (X1 : p_line x = (62 :: 32 :: l)%N /\ p_offset x = 0 /\ p_column x = 0) by (subst x; repeat split). destruct X1 as (X1 & X2 & X3).
    assert (X4 : p_stack x = p_stack q /\ p_line_number x = S (p_line_number q) /\ p_all_closed x = p_all_closed q /\ p_matched x = p_matched q /\ p_refmap x = p_refmap q /\ p_last_line_length x = p_last_line_length q /\ p_smart x = p_smart q) by (subst x; repeat split).
    destruct X4 as (X4 & X5 & X6 & X7 & X8 & X9 & X10). clear Ex.
    destruct (quote_mark x l X1 X2 X3) as (M1 & M2 & M3 & M4 & M5 & M6). cbn [descend]. cbn zeta. rewrite M1.
    unfold continue_. rewrite Bq. change (p_indented (fq x)) with false. rewrite M3. cbn [negb andb opt_is]. rewrite N.eqb_refl. cbn zeta. rewrite M4, M5. cbn [is_space_or_tab].
    rewrite N.eqb_refl. cbn [orb]. rewrite M6. cbn [bind].
    replace 2 with (1 + dd) by lia. eapply (descend_rest_sim _ _ l _ up b up'); [cbn [length app u]; lia| |exact E1|exact Hu|].
    { change (length (u "> " ++ l)) with (2 + length l). rewrite Nat.add_comm. apply HRl. }
    destruct H. constructor; unfold mv, fq; cbn [p_stack p_line p_line_number p_offset p_column p_pct p_all_closed p_matched p_refmap p_last_line_length p_smart set_p_indented set_p_indent set_p_next_nonspace_column set_p_next_nonspace set_p_blank line_start
       set_p_line set_p_line_number set_p_pct set_p_column set_p_offset]; rewrite ?X1, ?X4, ?X5, ?X6, ?X7, ?X8, ?X9, ?X10; try assumption; try (right; (reflexivity || assumption)); try lia; auto.
    exists (u "> "). split; [rewrite Hc; reflexivity|reflexivity].
  Qed.
  Lemma maybe_quote s : re_test reMaybeSpecial (62 :: s)%N = true.
  Proof. vm_compute. reflexivity. Qed.
  Lemma quoted_start x l d fu : p_line x = (62 :: 32 :: l)%N -> p_offset x = 0 -> p_column x = 0 -> p_stack x = [F d []] -> n_t d = document -> p_all_closed x = true ->
    starts_loop (S fu) 1 x = starts_loop fu 2 (set_p_stack [F (new_node block_quote (Some (p_line_number x, 1, (0, 0)))) []; F d []] (mv 2 2 false (fq x))).
  Proof.
    intros E1 E2 E3 E4 D1 E5. destruct (quote_mark x l E1 E2 E3) as (M1 & M2 & M3 & M4 & M5 & M6).
    assert (Eq1 : p_stack (mv 2 2 false (fq x)) = [F d []]) by exact E4. assert (Ef : p_stack (fq x) = [F d []]) by exact E4.
    cbn [starts_loop]. rewrite M1, M2, maybe_quote. cbn [negb]. rewrite andb_false_r.
    unfold block_at. rewrite Ef. cbn [length Nat.sub nth_error of_option bind].
    unfold block_starts. cbn [try_starts]. unfold start_block_quote at 1. rewrite M3. change (p_indented (fq x)) with false. cbn [negb andb opt_is]. rewrite N.eqb_refl. cbn zeta. rewrite M4, M5. cbn [is_space_or_tab].
    rewrite N.eqb_refl. cbn [orb]. rewrite M6. unfold close_unmatched_blocks. change (p_all_closed (mv 2 2 false (fq x))) with (p_all_closed x). rewrite E5. cbn [bind].
    unfold add_child. rewrite Eq1. cbn [length]. cbn [make_room]. unfold tip. rewrite Eq1. cbn [hd_error of_option bind].
    unfold f_type at 1. cbn [f_data]. rewrite D1. change (can_contain document block_quote) with (Ok (A:=bool) true). cbn [bind]. rewrite Eq1. reflexivity.
  Qed.
  Lemma quoted_tail x l d fu ln : p_line x = (62 :: 32 :: l)%N -> p_offset x = 0 -> p_column x = 0 -> p_stack x = [F d []] -> n_t d = document -> p_all_closed x = true ->
    line_tail (S fu) ln 1 x = line_tail fu ln 2 (set_p_stack [F (new_node block_quote (Some (p_line_number x, 1, (0, 0)))) []; F d []] (mv 2 2 false (fq x))).
  Proof. intros H1 H2 H3 H4 H5 H6. unfold line_tail. rewrite (quoted_start x l d) by assumption. reflexivity. Qed.
  Lemma fresh_fields l p : let x := set_p_matched 1 (set_p_all_closed true (line_start l p)) in
    p_stack x = p_stack p /\ p_line x = l /\ p_offset x = 0 /\ p_column x = 0 /\ p_pct x = false /\ p_all_closed x = true /\
    p_line_number x = S (p_line_number p) /\ p_refmap x = p_refmap p /\ p_last_line_length x = p_last_line_length p /\ p_smart x = p_smart p.
  Proof. destruct p as [a1 a2 a3 a4 a5 a6 a7 a8 a9 a10 a11 a12 a13 a14 a15 a16 a17 a18]. repeat split. Qed.
  Lemma line_rest_doc fu ln x d k : p_stack x = [F d k] -> n_t d = document ->
    line_rest fu ln (Some 1, x) = line_tail fu ln 1 (set_p_matched 1 (set_p_all_closed true x)).
  Proof.
    intros Es Ed. unfold line_rest. rewrite Es. cbn [length Nat.eqb]. unfold block_at. cbn [p_stack set_p_matched set_p_all_closed]. rewrite Es. cbn [length Nat.sub nth_error of_option bind].
    unfold f_type. cbn [f_data]. rewrite Ed. change (accepts_lines document) with (Ok (A:=bool) false). cbn [bind]. rewrite andb_false_r. reflexivity.
  Qed.
  Lemma incorporate_doc ln p d k : p_stack p = [F d k] -> n_t d = document ->
    incorporate_line ln p = line_tail (S (length (replace_char 0 65533 ln))) (replace_char 0 65533 ln) 1 (set_p_matched 1 (set_p_all_closed true (line_start (replace_char 0 65533 ln) p))).
  Proof.
    intros Es Ed. rewrite incorporate_line_eq. cbn zeta. assert (E : p_stack (line_start (replace_char 0 65533 ln) p) = [F d k]) by exact Es.
    rewrite E. cbn [rev app tl descend bind]. apply (line_rest_doc _ _ _ d k); assumption.
  Qed.
  Lemma replace_quoted s : replace_char 0 65533 (u "> " ++ s) = u "> " ++ replace_char 0 65533 s.
  Proof. reflexivity. Qed.
  Lemma replace_no_tab s : ~ In TAB s -> ~ In TAB (replace_char 0 65533 s).
  Proof. intros H G. apply in_map_iff in G as (x & Ex & Hx). destruct (N.eqb x 0); [discriminate|]. subst x. auto. Qed.
  Lemma quoted_first l d p3 q3 : Pre [] -> dc = 2 -> dd = 1 -> (forall n, Rl n (n + 2)) -> ~ In TAB l ->
    p_stack p3 = [doc_frame] -> p_stack q3 = [F d []] -> n_t d = document -> n_sourcepos d <> None ->
    p_line p3 = l -> p_line q3 = u "> " ++ l -> p_offset q3 = 0 -> p_column q3 = 0 -> p_offset p3 = 0 -> p_column p3 = 0 -> p_pct p3 = false -> p_all_closed p3 = true -> p_all_closed q3 = true ->
    p_line_number q3 = p_line_number p3 + dl -> 1 <= p_line_number p3 -> p_refmap q3 = p_refmap p3 -> Rl (p_last_line_length p3) (p_last_line_length q3) -> Rs (p_smart p3) (p_smart q3) ->
    rrel R1 (line_tail (S (length l)) l 1 p3) (line_tail (S (S (S (length l)))) (u "> " ++ l) 1 q3).
  Proof.
    intros Hnil Hc Hd HRl Ht Ep3 Eq3 D1 D2 Elp El O1 O2 O3 O4 O5 O6 O7 N1 N2 Erm Ell Esm.
    rewrite (quoted_tail q3 l d) by assumption.
    assert (H0 : R0 p3 (set_p_stack [F (new_node block_quote (Some (p_line_number q3, 1, (0, 0)))) []; F d []] (mv 2 2 false (fq q3)))).
    { constructor; cbn [p_stack set_p_stack].
      - rewrite Ep3. constructor.
        + split; [split; [left; reflexivity|split; [discriminate|reflexivity]]|]. split; [split; [left; right; reflexivity|split; [discriminate|reflexivity]]|]. split; [exists [], []; split; [reflexivity|split; [exact Hnil|constructor]]|].
          split; [intros X; apply Hex in X; destruct X as (_ & X & _); congruence|]. split; [intros _; reflexivity|rewrite Hd; discriminate].
        + right. left. exists d. auto.
      - exists (u "> "). split; [rewrite Hc; reflexivity|]. rewrite Elp. exact El.
      - right. rewrite Elp. exact Ht.
      - exact N1.
      - exact N2.
      - rewrite Hc, O3. reflexivity.
      - rewrite Hc, O4. reflexivity.
      - rewrite O5. reflexivity.
      - right. exact O5.
      - rewrite O6. exact O7.
      - rewrite O6. discriminate.
      - exact Erm.
      - exact Ell.
      - exact Esm. }
    remember (set_p_stack _ (mv 2 2 false (fq q3))) as q4 eqn:Z. clear Z.
    assert (Hl : Rl (length l) (length (u "> " ++ l))) by (change (length (u "> " ++ l)) with (2 + length l); rewrite Nat.add_comm; apply HRl).
    pose proof (line_tail_sim (S (length l)) (S (S (length l))) l (u "> " ++ l) 1 p3 q4 ltac:(auto) H0 ltac:(rewrite Ep3; cbn; auto) Hl) as G. rewrite Hd in G. exact G.
  Qed.
  Lemma incorporate_quoted_first ln p q d : Pre [] -> dc = 2 -> dd = 1 -> dl = 0 -> (forall n, Rl n (n + 2)) -> ~ In TAB ln -> 
    p_stack p = [doc_frame] -> p_stack q = [F d []] -> n_t d = document -> n_sourcepos d <> None ->
    p_line_number q = p_line_number p -> p_refmap q = p_refmap p -> Rl (p_last_line_length p) (p_last_line_length q) -> Rs (p_smart p) (p_smart q) -> 
    rrel R1 (incorporate_line ln p) (incorporate_line (u "> " ++ ln) q).
  Proof.
    intros Hnil Hc Hd Hl HRl Ht Ep Eq D1 D2 Hn Hr Hlll Hs. rewrite (incorporate_doc ln p _ _ Ep eq_refl), (incorporate_doc (u "> " ++ ln) q _ _ Eq D1), replace_quoted.
    pose proof (replace_no_tab _ Ht) as Ht'. remember (replace_char 0 65533 ln) as l eqn:Zl. clear Zl Ht.
    destruct (fresh_fields l p) as (P1 & P2 & P3 & P4 & P5 & P6 & P7 & P8 & P9 & P10), (fresh_fields (u "> " ++ l) q) as (Q1 & Q2 & Q3 & Q4 & Q5 & Q6 & Q7 & Q8 & Q9 & Q10).
    remember (set_p_matched 1 (set_p_all_closed true (line_start l p))) as p3 eqn:Z. clear Z. remember (set_p_matched 1 (set_p_all_closed true (line_start (u "> " ++ l) q))) as q3 eqn:Z. clear Z.
    change (length (u "> " ++ l)) with (S (S (length l))). apply (quoted_first l d); try assumption; try congruence.
    all: try (rewrite P9, Q9; exact Hlll); rewrite ?P7, ?Q7, ?Hn, ?Hl; auto; lia.
  Qed.

  (** *** Lines indented into a list item *)
  Lemma skip_spaces_repeat : forall n s i c, skip_spaces (repeat SP n ++ s) i c = skip_spaces s (i + n) (c + n).
  Proof.
    induction n as [|n IH]; intros s i c; cbn [repeat app skip_spaces]; [rewrite !Nat.add_0_r; reflexivity|]. rewrite N.eqb_refl, IH. f_equal; lia.
  Qed.
  Lemma skip_spaces_stop : forall s i c a b, ~ In TAB s -> skip_spaces s i c = (a, b) ->
    exists j r, s = repeat SP j ++ r /\ hd_error r <> Some SP /\ a = i + j /\ b = c + j.
  Proof.
    induction s as [|x s IH]; intros i c a b Ht E; cbn [skip_spaces] in E.
    - injection E as <- <-. exists 0, []. rewrite !Nat.add_0_r. repeat split. discriminate.
    - destruct (N.eqb_spec x SP) as [->|Hx].
      + destruct (IH (S i) (S c) a b) as (j & r & -> & H1 & H2 & H3); [intros X; apply Ht; right; exact X|exact E|]. exists (S j), r. repeat split; [exact H1|lia|lia].
      + destruct (N.eqb_spec x TAB) as [->|Hy]; [destruct Ht; left; reflexivity|]. injection E as <- <-. exists 0, (x :: s). rewrite !Nat.add_0_r. repeat split. cbn. congruence.
  Qed.
  Lemma indented_mark x l : p_line x = repeat SP dc ++ l -> p_offset x = 0 -> p_column x = 0 -> 1 <= dc -> ~ In TAB l -> (forall c, In c l -> c <> 10%N /\ c <> 13%N) -> ((forall c, In c l -> c = SP) -> l = []) ->
    exists y, forall d, n_t d = item -> item_indent d = Ok dc -> continue_ d true (find_next_nonspace x) = Ok (CMatch, y) /\
      p_stack y = p_stack x /\ p_line y = p_line x /\ p_offset y = dc /\ p_column y = dc /\ p_pct y = false /\ p_line_number y = p_line_number x /\ p_all_closed y = p_all_closed x /\ p_matched y = p_matched x /\
      p_refmap y = p_refmap x /\ p_last_line_length y = p_last_line_length x /\ p_smart y = p_smart x.
  Proof.
    intros El Eo Ec Hdc Ht Hn Hb. unfold find_next_nonspace. unfold rest_offset. rewrite Eo, Ec, El. cbn [skipn]. rewrite skip_spaces_repeat. cbn [Nat.add].
    destruct (skip_spaces l dc dc) as [a b] eqn:E. destruct (skip_spaces_stop l dc dc a b Ht E) as (j & r & -> & Hr & -> & ->).
    assert (Ep : peek (repeat SP dc ++ repeat SP j ++ r) (dc + j) = hd_error r).
    { unfold peek. rewrite app_assoc, <- repeat_app, nth_error_app2 by (rewrite repeat_length; lia). rewrite repeat_length, Nat.sub_diag. destruct r; reflexivity. }
    rewrite Ep. set (z := set_p_indented _ _).
    destruct r as [|c r]; cbn [hd_error] in *.
    - assert (Hj : j = 0). { rewrite app_nil_r in Hb. specialize (Hb ltac:(intros c Hc; apply repeat_spec in Hc; exact Hc)). destruct j; [reflexivity|discriminate]. } subst j.
      exists (advance_next_nonspace z). intros d D1 D2. unfold continue_. rewrite D1. change (p_blank z) with true. cbv iota.
      split; [reflexivity|]. unfold z, advance_next_nonspace. cbn [p_stack p_line p_offset p_column p_pct p_line_number p_all_closed p_matched p_refmap p_last_line_length p_smart p_next_nonspace p_next_nonspace_column set_p_pct set_p_column set_p_offset set_p_indented set_p_indent set_p_next_nonspace set_p_next_nonspace_column set_p_blank].
      rewrite !Nat.add_0_r. auto 20.
    - assert (Ez : p_blank z = false). { unfold z. cbn [p_blank set_p_indented set_p_indent set_p_next_nonspace set_p_next_nonspace_column set_p_blank]. destruct (Hn c) as [N1 N2]; [apply in_or_app; right; left; reflexivity|]. rewrite (proj2 (N.eqb_neq c 10) N1), (proj2 (N.eqb_neq c 13) N2). reflexivity. }
      assert (Ea : advance_offset dc true z = mv dc dc false z).
      { assert (F1 : skipn (p_offset z) (p_line z) = repeat SP dc ++ repeat SP j ++ c :: r) by (unfold z; cbn [p_offset p_line set_p_indented set_p_indent set_p_next_nonspace set_p_next_nonspace_column set_p_blank]; rewrite Eo, El; reflexivity).
        pose proof (advance_nontab (repeat SP dc) true z _ F1) as G. rewrite repeat_length in G. rewrite G; [|intros X; apply repeat_spec in X; discriminate|destruct dc; [lia|discriminate]].
        unfold z. cbn [p_offset p_column set_p_indented set_p_indent set_p_next_nonspace set_p_next_nonspace_column set_p_blank]. rewrite Eo, Ec. reflexivity. }
      exists (mv dc dc false z). intros d D1 D2. unfold continue_. rewrite D1, Ez, D2. cbn [bind]. change (p_indent z) with (dc + j - 0).
      rewrite (proj2 (Nat.leb_le dc (dc + j - 0))) by lia. rewrite Ea. split; [reflexivity|].
      unfold z, mv. cbn [p_stack p_line p_offset p_column p_pct p_line_number p_all_closed p_matched p_refmap p_last_line_length p_smart set_p_indented set_p_indent set_p_next_nonspace set_p_next_nonspace_column set_p_blank]. auto 20.
  Qed.
  Lemma incorporate_indented ln p q : dd = 2 -> 1 <= dc -> (forall n, Rl n (n + dc)) -> (forall a, Pre a -> a <> []) -> ~ In TAB ln -> (forall c, In c ln -> c <> 10%N /\ c <> 13%N) ->
    ((forall c, In c ln -> c = SP) -> ln = []) -> RL p q ->
    rrel R1 (incorporate_line ln p) (incorporate_line (repeat SP dc ++ ln) q).
  Proof.
    intros Hd Hdc HRl Hpn Ht Hn Hb H. rewrite !incorporate_line_eq. cbn zeta.
    assert (Er : replace_char 0 65533 (repeat SP dc ++ ln) = repeat SP dc ++ replace_char 0 65533 ln).
    { unfold replace_char. rewrite map_app. f_equal. clear. induction dc as [|n IH]; [reflexivity|]. cbn [repeat map]. rewrite IH. reflexivity. }
    rewrite Er.
    assert (Hin : forall c, In c (replace_char 0 65533 ln) -> c = 65533%N \/ In c ln).
    { intros c X. unfold replace_char in X. apply in_map_iff in X as (y & E & Hy). destruct (N.eqb y 0); subst; auto. } set (l := replace_char 0 65533 ln) in *.
    assert (Ht' : ~ In TAB l) by (intros X; destruct (Hin _ X) as [X1|X1]; [discriminate|exact (Ht X1)]).
    assert (Hn' : forall c, In c l -> c <> 10%N /\ c <> 13%N) by (intros c X; destruct (Hin _ X) as [-> |X1]; [split; discriminate|exact (Hn c X1)]).
    assert (Hb' : (forall c, In c l -> c = SP) -> l = []).
    { intros X. unfold l, replace_char. rewrite Hb; [reflexivity|]. intros c Hc. unfold l, replace_char in X.
      specialize (X _ (in_map (fun c => if N.eqb c 0 then 65533%N else c) ln c Hc)). cbv beta in X. destruct (N.eqb_spec c 0); [discriminate|exact X]. }
    destruct (srel_path _ _ (l_stack _ _ H)) as (up & b & up' & b' & e & E1 & E2 & Hu & Hbr & He).
    destruct He as [[_ X]|[(d & _ & _ & _ & X)|(l0 & d & -> & [L1 L1'] & L2 & D1 & D2 & _)]]; [lia..|]. pose proof Hbr as (_ & _ & (ka & kb & Ek & Hka & _) & _ & _ & Bq). destruct (Bq Hd) as [Bt Bi].
    change (p_stack (line_start l p)) with (p_stack p). change (p_stack (line_start (repeat SP dc ++ l) q)) with (p_stack q). rewrite E1, E2, !rev_app_distr. cbn [rev app tl].
    remember (line_start (repeat SP dc ++ l) q) as x eqn:Ex.
    assert (X1 : p_line x = repeat SP dc ++ l /\ p_offset x = 0 /\ p_column x = 0) by (subst x; repeat split). destruct X1 as (X1 & X2 & X3).
    assert (X4 : p_stack x = p_stack q /\ p_line_number x = S (p_line_number q) /\ p_all_closed x = p_all_closed q /\ p_matched x = p_matched q /\ p_refmap x = p_refmap q /\ p_last_line_length x = p_last_line_length q /\ p_smart x = p_smart q) by (subst x; repeat split).
    destruct X4 as (X4 & X5 & X6 & X7 & X8 & X9 & X10). clear Ex.
    cbn [descend]. cbn zeta. unfold continue_ at 1. cbn [f_data]. rewrite L1. cbn [bind].
    assert (Z : p_line (find_next_nonspace x) = repeat SP dc ++ l /\ p_offset (find_next_nonspace x) = 0 /\ p_column (find_next_nonspace x) = 0 /\
      p_stack (find_next_nonspace x) = p_stack q /\ p_line_number (find_next_nonspace x) = S (p_line_number q) /\ p_all_closed (find_next_nonspace x) = p_all_closed q /\ p_matched (find_next_nonspace x) = p_matched q /\ p_refmap (find_next_nonspace x) = p_refmap q /\ p_last_line_length (find_next_nonspace x) = p_last_line_length q /\ p_smart (find_next_nonspace x) = p_smart q).
    { unfold find_next_nonspace. destruct (skip_spaces _ _ _). cbn [p_stack p_line p_offset p_column p_pct p_line_number p_all_closed p_matched p_refmap p_last_line_length p_smart set_p_indented set_p_indent set_p_next_nonspace set_p_next_nonspace_column set_p_blank]. auto 20. }
    destruct Z as (Z1 & Z2 & Z3 & Z4 & Z5 & Z6 & Z7 & Z8 & Z9 & Z10). remember (find_next_nonspace x) as z eqn:Z. clear Z.
    destruct (indented_mark z l Z1 Z2 Z3 Hdc Ht' Hn' Hb') as (y & Hy). destruct (Hy _ Bt Bi) as (Yc & Y1 & Y2 & Y3 & Y4 & Y5 & Y6 & Y7 & Y8 & Y9 & Y10 & Y11).
    assert (Ehk : (negb (is_nil (f_kids b')) || negb (is_nil (rev up')))%bool = true).
    { rewrite Ek. destruct ka as [|t ka]; [destruct (Hpn [] Hka eq_refl)|reflexivity]. }
    rewrite Ehk, Yc. cbn [bind].
    replace 3 with (1 + dd) by lia. eapply (descend_rest_sim _ _ l _ up b up'); [rewrite app_length; lia| |exact E1|exact Hu|].
    { rewrite app_length, repeat_length, Nat.add_comm. apply HRl. }
    clear Hy Bq Yc. destruct H as [H1 H2 H3 H4 H5 H6 H7].
    clear - H1 H2 H3 H4 H5 H6 H7 Y1 Y2 Y3 Y4 Y5 Y6 Y7 Y8 Y9 Y10 Y11 Z1 Z4 Z5 Z6 Z7 Z8 Z9 Z10 Ht' Hd.
    constructor; rewrite ?Y1, ?Y2, ?Y3, ?Y4, ?Y5, ?Y6, ?Y7, ?Y8, ?Y9, ?Y10, ?Y11, ?Z1, ?Z4, ?Z5, ?Z6, ?Z7, ?Z8, ?Z9, ?Z10.
    - exact H1.
    - exists (repeat SP dc). split; [apply repeat_length|reflexivity].
    - right. exact Ht'.
    - rewrite H2. reflexivity.
    - apply le_n_S, Nat.le_0_l.
    - reflexivity.
    - reflexivity.
    - reflexivity.
    - right. reflexivity.
    - exact H3.
    - exact H4.
    - exact H5.
    - exact H6.
    - exact H7.
  Qed.

  (** *** The end of the document *)
  Definition docrel (p q : parser) : Prop :=
    p_refmap q = p_refmap p /\ Rs (p_smart p) (p_smart q) /\
    exists d k d' k', p_doc p = Some (T d k) /\ bt (n_t d) /\ krel k k' /\ (ex -> d' = d) /\ bt' (n_t d') /\ (dd = 1 -> n_t d' = block_quote) /\
      ((dd = 0 /\ p_doc q = Some (T d' k')) \/ (dd = 1 /\ exists e, n_t e = document /\ p_doc q = Some (T e [T d' k'])) \/
       (dd = 2 /\ exists l e, n_t d' = item /\ (n_t l = list_ /\ n_list_data l = LD) /\ n_t e = document /\
          p_doc q = Some (T e [T (fst (finalize_list l (LK ++ [T d' k']))) (snd (finalize_list l (LK ++ [T d' k'])))]))).
  Lemma finalize_bt ln p f st : p_stack p = f :: st -> bt (f_type f) -> n_sourcepos (f_data f) <> None ->
    exists sp0 x, n_sourcepos (f_data f) = Some (sp0, x) /\
      finalize_tip ln p = Ok (attach (T (set_n_sourcepos (Some (sp0, (ln, p_last_line_length p))) (set_n_is_open false (f_data f))) (f_kids f)) (set_p_stack st p)).
  Proof.
    intros Es Hb Hp. unfold finalize_tip. rewrite Es. destruct (n_sourcepos (f_data f)) as [[sp0 x]|] eqn:E; [|congruence]. exists sp0, x. split; [reflexivity|].
    cbn [n_sourcepos set_n_is_open]. rewrite E. cbn [of_option bind n_t set_n_sourcepos set_n_is_open]. unfold f_type in Hb. destruct Hb as [->| ->]; reflexivity.
  Qed.
  Lemma finalize_bt' ln p f st : p_stack p = f :: st -> bt' (f_type f) -> n_sourcepos (f_data f) <> None ->
    exists sp0 x, n_sourcepos (f_data f) = Some (sp0, x) /\
      finalize_tip ln p = Ok (attach (T (set_n_sourcepos (Some (sp0, (ln, p_last_line_length p))) (set_n_is_open false (f_data f))) (f_kids f)) (set_p_stack st p)).
  Proof.
    intros Es [Hb|[_ Hb]] Hp; [apply finalize_bt; assumption|]. unfold finalize_tip. rewrite Es. destruct (n_sourcepos (f_data f)) as [[sp0 x]|] eqn:E; [|congruence]. exists sp0, x. split; [reflexivity|].
    cbn [n_sourcepos set_n_is_open]. rewrite E. cbn [of_option bind n_t set_n_sourcepos set_n_is_open]. unfold f_type in Hb. rewrite Hb. reflexivity.
  Qed.
  Lemma finalize_li ln p f st : p_stack p = f :: st -> f_type f = list_ -> n_sourcepos (f_data f) <> None ->
    exists d, (n_t d = list_ /\ n_list_data d = n_list_data (f_data f)) /\
      finalize_tip ln p = Ok (attach (T (fst (finalize_list d (f_kids f))) (snd (finalize_list d (f_kids f)))) (set_p_stack st p)).
  Proof.
    intros Es Hb Hp. unfold finalize_tip. rewrite Es. destruct (n_sourcepos (f_data f)) as [[sp0 x]|] eqn:E; [|congruence].
    cbn [n_sourcepos set_n_is_open]. rewrite E. cbn [of_option bind n_t set_n_sourcepos set_n_is_open]. unfold f_type in Hb. rewrite Hb.
    match goal with |- context [finalize_list ?x _] => exists x; destruct (finalize_list x (f_kids f)) end. split; [split; [exact Hb|reflexivity]|reflexivity].
  Qed.
  (** the blocks around the bottom one *)
  Lemma finalize_around : forall e f ln q d' k', erel e -> length e <= f -> p_stack q = e -> (dd = 2 -> n_t d' = item) ->
    exists q1, finalize_all f ln (attach (T d' k') q) = Ok q1 /\ p_refmap q1 = p_refmap q /\ p_smart q1 = p_smart q /\
      ((dd = 0 /\ p_doc q1 = Some (T d' k')) \/ (dd = 1 /\ exists e, n_t e = document /\ p_doc q1 = Some (T e [T d' k'])) \/
       (dd = 2 /\ exists l e, n_t d' = item /\ (n_t l = list_ /\ n_list_data l = LD) /\ n_t e = document /\
          p_doc q1 = Some (T e [T (fst (finalize_list l (LK ++ [T d' k']))) (snd (finalize_list l (LK ++ [T d' k'])))]))).
  Proof.
    intros e f ln q d' k' He Hf Es Hk. destruct He as [[-> Hd]|[(d0 & -> & D1 & D2 & Hd)|(l0 & d0 & -> & [L1 L1'] & L2 & D1 & D2 & Hd)]].
    - unfold attach. rewrite Es. destruct f; cbn [finalize_all p_stack set_p_doc]; rewrite Es; eexists; (split; [reflexivity|]); cbn [p_refmap p_smart p_doc set_p_doc]; auto.
    - destruct f as [|f]; [cbn in Hf; lia|]. unfold attach. rewrite Es. cbn [f_data f_kids app].
      match goal with |- context [finalize_all (S f) _ ?x] => set (q1 := x) end. cbn [finalize_all]. change (p_stack q1) with [F d0 [T d' k']]. cbv iota.
      destruct (finalize_bt ln q1 (F d0 [T d' k']) [] eq_refl (or_introl D1) D2) as (sp0 & x0 & F3 & ->). cbn [bind]. unfold attach. cbn [p_stack set_p_stack f_data f_kids].
      destruct f; cbn [finalize_all p_stack set_p_doc set_p_stack]; eexists; (split; [reflexivity|]); cbn [p_refmap p_smart p_doc set_p_doc set_p_stack q1]; (split; [reflexivity|split; [reflexivity|]]); right; left; (split; [exact Hd|]); eexists; (split; [|reflexivity]); exact D1.
    - destruct f as [|[|f]]; [cbn in Hf; lia..|]. unfold attach. rewrite Es. cbn [f_data f_kids app].
      match goal with |- context [finalize_all (S (S f)) _ ?x] => set (q1 := x) end. cbn [finalize_all]. change (p_stack q1) with [F l0 (LK ++ [T d' k']); F d0 []]. cbv iota.
      destruct (finalize_li ln q1 (F l0 (LK ++ [T d' k'])) [F d0 []] eq_refl L1 L2) as (l & [El El'] & ->). cbn [f_data] in El'. cbn [bind f_kids]. unfold attach. cbn [p_stack set_p_stack f_data f_kids app].
      match goal with |- context [finalize_tip _ ?x] => set (q2 := x) end.
      match type of q2 with _ => destruct (finalize_bt ln q2 (F d0 [T (fst (finalize_list l (LK ++ [T d' k']))) (snd (finalize_list l (LK ++ [T d' k'])))]) [] eq_refl (or_introl D1) D2) as (sp0 & x0 & F3 & ->) end. cbn [bind]. unfold attach. cbn [p_stack set_p_stack f_data f_kids].
      destruct f; cbn [finalize_all p_stack set_p_doc set_p_stack]; eexists; (split; [reflexivity|]); cbn [p_refmap p_smart p_doc set_p_doc set_p_stack q1 q2]; (split; [reflexivity|split; [reflexivity|]]); right; right; (split; [exact Hd|]); do 2 eexists; (split; [exact (Hk Hd)|]); (split; [split; [exact El|congruence]|]); (split; [|reflexivity]); exact D1.
  Qed.
  Lemma finalize_all_sim : forall f f' ln p q, f + dd <= f' -> R1 p q -> rrel docrel (finalize_all f ln p) (finalize_all f' (ln + dl) q).
  Proof.
    induction f as [|f IH]; intros f' ln p q Hf H; pose proof (r_stack _ _ (r_0 _ _ H)) as Hs.
    - unfold finalize_all. destruct Hs; exact I.
    - inversion Hs as [b b' e Hb He E1 E2|g g' st st' Hg Hs' E1 E2].
      + destruct f' as [|f']; [lia|]. cbn [finalize_all]. rewrite <- E1, <- E2. cbv iota.
        destruct Hb as ((B1 & B2 & B3) & (B1' & B2' & B3') & B4 & B5 & B6).
        destruct (finalize_bt ln p b [] (eq_sym E1) B1 B2) as (sp & x & F1 & ->). destruct (finalize_bt' (ln + dl) q b' e (eq_sym E2) B1' B2') as (sp' & x' & F2 & ->). cbn [bind].
        unfold attach at 1. cbn [p_stack set_p_stack].
        set (d := set_n_sourcepos _ _); set (d' := set_n_sourcepos (Some (sp', _)) _).
        assert (Hdd : ex -> d' = d) by (intros X; unfold d, d'; rewrite (B5 X) in *; destruct (Hex X) as (-> & _ & _ & HR); pose proof (HR _ _ (r_lll _ _ (r_0 _ _ H))) as ->; rewrite Nat.add_0_r; congruence).
        assert (Hle : length e <= f') by (destruct He as [[-> ?]|[(? & -> & _ & _ & ?)|(? & ? & -> & _ & _ & _ & _ & ?)]]; cbn [length]; lia).
        destruct (finalize_around e f' (ln + dl) (set_p_stack e q) d' (f_kids b') He Hle eq_refl ltac:(intros X; exact (proj1 (proj2 B6 X)))) as (q1 & -> & Q1 & Q2 & Q3).
        assert (Ef : finalize_all f ln (set_p_doc (Some (T d (f_kids b))) (set_p_stack [] p)) = Ok (set_p_doc (Some (T d (f_kids b))) (set_p_stack [] p))) by (destruct f; reflexivity).
        rewrite Ef. apply rrel_ok. split; [rewrite Q1; apply (r_refmap _ _ (r_0 _ _ H))|]. split; [rewrite Q2; apply (r_smart _ _ (r_0 _ _ H))|].
        exists d, (f_kids b), d', (f_kids b'). split; [reflexivity|]. split; [exact B1|]. split; [exact B4|]. split; [exact Hdd|]. split; [exact B1'|]. split; [apply B6|]. exact Q3.
      + destruct f' as [|f']; [lia|]. cbn [finalize_all]. rewrite <- E1, <- E2. eapply rrel_bind.
        * apply finalize_tip_sim; [exact H|rewrite <- E1; apply srel_len in Hs'; cbn; lia|reflexivity].
        * intros p1 q1 H1. apply IH; [lia|exact H1].
  Qed.

  (** *** Inlines *)
  (** the trees of two finished documents: paragraphs and headings with the same children,
      blocks that differ in their positions *)
  Inductive prel : tree -> tree -> Prop :=
  | prel_par d d' k : n_t d = paragraph \/ n_t d = heading -> drel d d' -> prel (T d k) (T d' k)
  | prel_blk d d' k k' : inline_type (n_t d) = false -> drel d d' -> Forall2 prel k k' -> prel (T d k) (T d' k').
  Definition same_ip (s s' : ip) : Prop := ip_refmap s' = ip_refmap s /\ ip_smart s' = ip_smart s.
  Lemma parseInlines_same c s s' : same_ip s s' -> parseInlines c s' = parseInlines c s.
  Proof. intros [H1 H2]. unfold parseInlines. rewrite H1, H2. reflexivity. Qed.
  (** paragraphs and headings have no children yet *)
  Definition leaf_par (t : tree) : Prop := let 'T d k := t in inline_type (n_t d) = false /\ (n_t d = paragraph \/ n_t d = heading -> k = []).
  Lemma trel_prel : forall t t', trel t t' -> tree_every leaf_par t -> prel t t'.
  Proof.
    induction t as [d k IH] using tree_ind'. intros t' H Hl. inversion H as [d1 d' k1 k' Hd Hk]; subst. apply tree_every_unfold in Hl as [[Hl1 _] Hl2]. apply prel_blk; [exact Hl1|exact Hd|].
    clear - IH Hk Hl2. revert k' Hk. induction IH as [|x l Hx _ IHl]; intros k' Hk; inversion Hk; subst; inversion Hl2; subst; constructor; auto.
  Qed.
  Fixpoint process_all (ks : list tree) (s : ip) : res (list tree * ip) :=
    match ks with
    | [] => Ok ([], s)
    | k :: ks' =>
        let* (k', s1) := process_inlines k s in
        let* (l, s2) := process_all ks' s1 in
        Ok (k' :: l, s2)
    end.
  Lemma process_inlines_eq d kids s : process_inlines (T d kids) s =
    if is_container (n_t d)
    then
      let* (kids', s1) := process_all kids s in
      if ntype_eqb (n_t d) paragraph || ntype_eqb (n_t d) heading
      then
        let* content := of_option AttributeError (n_string_content d) in
        let* (inls, s2) := parseInlines content s1 in
        Ok (T d (kids' ++ inls), s2)
      else Ok (T d kids', s1)
    else Ok (T d kids, s).
  Proof. reflexivity. Qed.
  Lemma process_inlines_sim : forall t t', trel t t' -> tree_every leaf_par t -> forall s s', same_ip s s' ->
    rrel (fun x y => prel (fst x) (fst y) /\ same_ip (snd x) (snd y)) (process_inlines t s) (process_inlines t' s').
  Proof.
    induction t as [d k IH] using tree_ind'. intros t' H Hl s s' Hs. inversion H as [d1 d' k1 k' Hd Hk]; subst. pose proof Hl as Hl0. apply tree_every_unfold in Hl as [[Hl3 Hl1] Hl2].
    rewrite !process_inlines_eq. rewrite (drel_type _ _ Hd), (drel_field n_string_content _ _ ltac:(reflexivity) Hd).
    assert (Hgo : rrel (fun x y => Forall2 prel (fst x) (fst y) /\ same_ip (snd x) (snd y)) (process_all k s) (process_all k' s')).
    { clear - IH Hk Hl2 Hs. revert k' Hk s s' Hs. induction IH as [|x l Hx _ IHl]; intros k' Hk s s' Hs; inversion Hk as [|x0 y l0 l' Hy Hk']; subst; cbn [process_all].
      - apply rrel_ok. split; [constructor|exact Hs].
      - inversion Hl2 as [|x0 l0 L1 L2]; subst. eapply rrel_bind; [apply Hx; eassumption|]. intros [a s1] [b s2] [G1 G2]. cbn [fst snd] in G1, G2.
        eapply rrel_bind; [apply IHl; eassumption|]. intros [la s3] [lb s4] [G3 G4]. cbn [fst snd] in G3, G4. apply rrel_ok. split; [constructor; assumption|exact G4]. }
    destruct (is_container (n_t d)).
    - destruct (ntype_eqb (n_t d) paragraph || ntype_eqb (n_t d) heading) eqn:Eph.
      + assert (Hty : n_t d = paragraph \/ n_t d = heading) by (destruct (n_t d); try discriminate; auto).
        pose proof (Hl1 Hty) as ->. inversion Hk; subst. cbn [process_all bind].
        eapply rrel_bind; [apply rrel_eq|]. intros c ? <-. rewrite (parseInlines_same _ s s' Hs). eapply rrel_bind; [apply rrel_eq|]. intros [i s2] ? <-. apply rrel_ok. cbn [app]. split; [apply prel_par; assumption|split; reflexivity].
      + eapply rrel_bind; [exact Hgo|]. intros [a s1] [b s2] [G1 G2]. cbn [fst snd] in G1, G2. apply rrel_ok. split; [apply prel_blk; assumption|exact G2].
    - apply rrel_ok. split; [apply trel_prel; assumption|exact Hs].
  Qed.

  (** *** From the last line to the finished document *)
  Definition finish (ln : nat) (p : parser) : res tree :=
    let* p1 := finalize_all (length (p_stack p)) ln p in
    let* doc := of_option Impossible (p_doc p1) in
    let* (doc', _) := process_inlines doc (IP (ip_subject (p_ip p1)) (ip_pos (p_ip p1)) (p_refmap p1) (p_smart p1)
                (ip_delims (p_ip p1)) (ip_brackets (p_ip p1)) (ip_kids (p_ip p1)) (ip_next (p_ip p1))) in
    Ok doc'.
  Definition result (x : res (tree * parser)) : res tree := let* (t, _) := x in Ok t.
  Lemma parse_finish p s : result (parse p s) = let* p1 := incorporate_lines (input_lines s) (reset p) in finish (length (input_lines s)) p1.
  Proof.
    unfold parse, parse_blocks, finish, result. destruct (incorporate_lines _ _) as [p1|e]; [|reflexivity]. cbn [bind]. destruct (finalize_all _ _ _) as [p2|e]; [|reflexivity]. cbn [bind].
    destruct (of_option _ _) as [t|e]; [|reflexivity]. cbn [bind]. destruct (process_inlines _ _) as [[t' s']|e]; reflexivity.
  Qed.
  (** what becomes of the blocks of [Pre] *)
  Variable Post : list tree -> Prop.
  Hypothesis Hpost : forall a s, Pre a -> exists a' s', process_all a s = Ok (a', s') /\ same_ip s s' /\ Post a'.
  Definition pkrel (k k' : list tree) : Prop := exists a b, k' = a ++ b /\ Post a /\ Forall2 prel k b.
  Definition treerel (t t' : tree) : Prop :=
    exists d k d' k', t = T d k /\ bt (n_t d) /\ pkrel k k' /\ (ex -> d' = d) /\ bt (n_t d') /\ (dd = 1 -> n_t d' = block_quote) /\
      ((dd = 0 /\ t' = T d' k') \/ (dd = 1 /\ exists e, n_t e = document /\ t' = T e [T d' k'])).
  Lemma process_all_sim k k' s s' : Forall2 trel k k' -> Forall (tree_every leaf_par) k -> same_ip s s' ->
    rrel (fun x y => Forall2 prel (fst x) (fst y) /\ same_ip (snd x) (snd y)) (process_all k s) (process_all k' s').
  Proof.
    intros H. revert s s'. induction H as [|x y l l' Hx _ IH]; intros s s' Hl Hs; cbn [process_all]; [apply rrel_ok; split; [constructor|exact Hs]|].
    inversion Hl as [|x0 l0 L1 L2]; subst. eapply rrel_bind; [apply process_inlines_sim; eassumption|]. intros [a s1] [b s2] [G1 G2]. cbn [fst snd] in G1, G2.
    eapply rrel_bind; [apply IH; eassumption|]. intros [la s3] [lb s4] [G3 G4]. cbn [fst snd] in G3, G4. apply rrel_ok. split; [constructor; assumption|exact G4].
  Qed.
  Lemma process_all_app a b s : process_all (a ++ b) s = let* (a', s1) := process_all a s in let* (b', s2) := process_all b s1 in Ok (a' ++ b', s2).
  Proof.
    revert s. induction a as [|x a IH]; intros s; cbn [app process_all bind]; [destruct (process_all b s) as [[? ?]|]; reflexivity|].
    destruct (process_inlines x s) as [[x' s1]|e]; [|reflexivity]. cbn [bind]. rewrite IH. destruct (process_all a s1) as [[a' s2]|e]; [|reflexivity]. cbn [bind].
    destruct (process_all b s2) as [[b' s3]|e]; reflexivity.
  Qed.
  Lemma process_krel k k' s s' : krel k k' -> Forall (tree_every leaf_par) k -> same_ip s s' ->
    rrel (fun x y => pkrel (fst x) (fst y)) (process_all k s) (process_all k' s').
  Proof.
    intros (a & b & -> & Ha & H) Hl Hs. rewrite process_all_app. destruct (Hpost a s' Ha) as (a' & s1 & -> & Hs1 & Ha'). cbn [bind].
    assert (Hs2 : same_ip s s1) by (destruct Hs, Hs1; split; congruence). pose proof (process_all_sim k b s s1 H Hl Hs2) as G.
    destruct (process_all k s) as [[ks s3]|x]; [|destruct x; cbn in G |- *; try rewrite G; auto].
    destruct G as ([ks' s4] & -> & G & _). cbn [fst bind] in G |- *. apply rrel_ok. exists a', ks'. auto.
  Qed.
  Lemma process_bt d k s : bt (n_t d) -> process_inlines (T d k) s = let* (k', s1) := process_all k s in Ok (T d k', s1).
  Proof. intros [E|E]; rewrite process_inlines_eq, E; reflexivity. Qed.
  Lemma finish_sim ln p q : dd <= 1 -> (forall a b, Rs a b -> b = a) -> R1 p q -> (forall p1 t, finalize_all (length (p_stack p)) ln p = Ok p1 -> p_doc p1 = Some t -> tree_every leaf_par t) ->
    rrel treerel (finish ln p) (finish (ln + dl) q).
  Proof.
    intros Hdd HRs H Hleaf. unfold finish. pose proof (srel_len _ _ (r_stack _ _ (r_0 _ _ H))) as [El _].
    pose proof (finalize_all_sim (length (p_stack p)) (length (p_stack q)) ln p q ltac:(lia) H) as G.
    destruct (finalize_all (length (p_stack p)) ln p) as [p1|e] eqn:E; [|destruct e; cbn in G |- *; try rewrite G; auto].
    destruct G as (q1 & -> & G1 & G2 & d & k & d' & k' & G3 & G4 & G5 & G6 & G7 & G8 & G9). apply HRs in G2. destruct G7 as [G7|[X _]]; [|lia]. cbn [bind]. specialize (Hleaf p1 _ eq_refl G3). apply tree_every_unfold in Hleaf as [_ Hleaf].
    rewrite G3. cbn [of_option bind]. rewrite (process_bt d k) by exact G4. set (s := IP _ _ _ _ _ _ _ _).
    destruct G9 as [[Hd ->]|[[Hd (e & He & ->)]|[X _]]]; [| |lia]; cbn [of_option bind]; set (s' := IP _ _ (p_refmap q1) _ _ _ _ _); rewrite (process_bt) by (exact G7 || (left; exact He)).
    - pose proof (process_krel k k' s s' G5 Hleaf (conj G1 G2)) as K. destruct (process_all k s) as [[ks s1]|x]; [|destruct x; cbn in K |- *; try rewrite K; auto].
      destruct K as ([ks' s2] & -> & K1). cbn [fst snd] in K1. cbn [bind]. apply rrel_ok. exists d, ks, d', ks'. split; [reflexivity|]. split; [exact G4|]. repeat (split; [assumption|]). left. auto.
    - cbn [process_all]. rewrite process_bt by exact G7.
      pose proof (process_krel k k' s s' G5 Hleaf (conj G1 G2)) as K. destruct (process_all k s) as [[ks s1]|x]; [|destruct x; cbn in K |- *; try rewrite K; auto].
      destruct K as ([ks' s2] & -> & K1). cbn [fst snd] in K1. cbn [bind]. apply rrel_ok. exists d, ks, d', ks'. split; [reflexivity|]. split; [exact G4|]. repeat (split; [assumption|]). right. split; [exact Hd|]. exists e. auto.
  Qed.
End Sim.
