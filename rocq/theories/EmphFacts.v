(** * Delimiters, brackets and the siblings they point to; processEmphasis *)
From Verif Require Import Base Regex Common Node Inlines RegexFacts StrFacts Spec SpecTree TreeFacts.
From Coq Require Import Permutation ZifyBool ZifyNat ZifyN.

(** ** Looking up siblings *)
Definition ids (ks : list (nat * tree)) : list nat := map fst ks.
Lemma ids_app a b : ids (a ++ b) = ids a ++ ids b.
Proof. apply map_app. Qed.
Lemma split_kid_found id t pre post : ~ In id (ids pre) -> split_kid id (pre ++ (id, t) :: post) = Some (pre, t, post).
Proof.
  induction pre as [|[i x] pre IH]; cbn; intros H.
  - rewrite Nat.eqb_refl. reflexivity.
  - destruct (Nat.eqb_spec i id); [tauto|]. rewrite IH by tauto. reflexivity.
Qed.
Lemma NoDup_pre id (t : tree) pre post : NoDup (ids (pre ++ (id, t) :: post)) -> ~ In id (ids pre).
Proof. rewrite ids_app. cbn. intros H Hin. apply NoDup_remove_2 in H. apply H, in_or_app. left. exact Hin. Qed.

Lemma NoDup_app_remove_l {A} (a b : list A) : NoDup (a ++ b) -> NoDup b.
Proof. induction a as [|x a IH]; intros H; [exact H|]. inversion H; subst. auto. Qed.
Lemma NoDup_app_remove_mid {A} (a b c : list A) : NoDup (a ++ b ++ c) -> NoDup (a ++ c).
Proof. revert a. induction b as [|x b IH]; intros a H; [exact H|]. apply IH. apply NoDup_remove_1 in H. exact H. Qed.
Lemma NoDup_insert {A} (a b : list A) x : NoDup (a ++ b) -> ~ In x (a ++ b) -> NoDup (a ++ x :: b).
Proof.
  intros H1 H2. apply (Permutation_NoDup (l := x :: a ++ b)); [apply Permutation_middle|].
  constructor; assumption.
Qed.

(** ** Marks: the entries of the two stacks, merged, oldest first *)
Inductive mark := MD (d : delim) | MB (b : bracket).
Definition mark_id (m : mark) : nat := match m with MD d => d_node d | MB b => b_node b end.
Definition is_emph_char (c : N) : Prop := c = 42%N \/ c = 95%N.
Definition is_quote_char (c : N) : Prop := c = 39%N \/ c = 34%N.
(** what the text node of a delimiter looks like *)
Definition delim_text (d : delim) (l : str) : Prop :=
  (is_emph_char (d_cc d) /\ 1 <= d_num d /\ l = repeat (d_cc d) (d_num d)) \/
  (is_quote_char (d_cc d) /\ d_num d = 1 /\
   (d_cc d = 39%N /\ (l = [8216%N] \/ l = [8217%N]) \/ d_cc d = 34%N /\ (l = [8220%N] \/ l = [8221%N]))).
Definition mark_ok (m : mark) (t : tree) : Prop :=
  match m with MB _ => True | MD d => exists l, t = text_node l /\ delim_text d l end.
Inductive marked : list mark -> list (nat * tree) -> Prop :=
| marked_nil ks : marked [] ks
| marked_cons m ms t pre post :
    mark_ok m t -> marked ms post -> marked (m :: ms) (pre ++ (mark_id m, t) :: post).

Lemma marked_cons_inv m ms ks : marked (m :: ms) ks ->
  exists t pre post, ks = pre ++ (mark_id m, t) :: post /\ mark_ok m t /\ marked ms post.
Proof. intros H. inversion H; subst. eauto 8. Qed.
Lemma marked_pre ms k k' : marked ms k -> marked ms (k' ++ k).
Proof.
  destruct 1; [constructor|]. rewrite app_assoc. constructor; assumption.
Qed.
Lemma marked_post ms k k' : marked ms k -> marked ms (k ++ k').
Proof. induction 1; [constructor|]. rewrite <- app_assoc. cbn. constructor; assumption. Qed.
Lemma marked_app a b ks : marked (a ++ b) ks <-> exists k1 k2, ks = k1 ++ k2 /\ marked a k1 /\ marked b k2.
Proof.
  split.
  - revert ks. induction a as [|m a IH]; cbn; intros ks H.
    + exists [], ks. repeat split; [constructor|exact H].
    + inversion H as [|? ? t pre post Hm Hr]; subst. apply IH in Hr as (k1 & k2 & -> & H1 & H2).
      exists (pre ++ (mark_id m, t) :: k1), k2. rewrite <- app_assoc. cbn. repeat split; [constructor; assumption|exact H2].
  - intros (k1 & k2 & -> & H1 & H2). induction H1 as [ks|m ms t pre post Hm Hr IH]; cbn.
    + apply marked_pre, H2.
    + rewrite <- app_assoc. cbn. constructor; assumption.
Qed.
Lemma marked_drop a b c ks : marked (a ++ b ++ c) ks -> marked (a ++ c) ks.
Proof.
  intros H. apply marked_app in H as (k1 & k2 & -> & H1 & H2). apply marked_app in H2 as (k3 & k4 & -> & H3 & H4).
  apply marked_app. exists k1, (k3 ++ k4). repeat split; [exact H1|]. apply marked_pre, H4.
Qed.
Lemma marked_ids ms ks : marked ms ks -> forall m, In m ms -> In (mark_id m) (ids ks).
Proof.
  induction 1 as [|m ms t pre post Hm Hr IH]; intros x Hx; [destruct Hx|]. rewrite ids_app. apply in_or_app. right.
  destruct Hx as [->|Hx]; [left; reflexivity|]. right. apply IH, Hx.
Qed.
Lemma marked_NoDup ms ks : marked ms ks -> NoDup (ids ks) -> NoDup (map mark_id ms).
Proof.
  induction 1 as [|m ms t pre post Hm Hr IH]; intros Hn; [constructor|]. rewrite ids_app in Hn. apply NoDup_app_remove_l in Hn.
  cbn in Hn. inversion Hn as [|? ? Hn1 Hn2]; subst. cbn. constructor; [|apply IH, Hn2].
  intros Hin. apply in_map_iff in Hin as (x & Hx & Hin). apply Hn1. rewrite <- Hx. eapply marked_ids; eassumption.
Qed.
(** the delimiters and the brackets among marks *)
Definition md (ms : list mark) : list delim := flat_map (fun m => match m with MD d => [d] | MB _ => [] end) ms.
Definition mb (ms : list mark) : list bracket := flat_map (fun m => match m with MB b => [b] | MD _ => [] end) ms.
Lemma md_app a b : md (a ++ b) = md a ++ md b.
Proof. apply flat_map_app. Qed.
Lemma mb_app a b : mb (a ++ b) = mb a ++ mb b.
Proof. apply flat_map_app. Qed.
Lemma marked_md ms ks : marked ms ks -> marked (map MD (md ms)) ks.
Proof.
  induction 1 as [|m ms t pre post Hm Hr IH]; [constructor|]. destruct m as [d|b]; cbn.
  - constructor; assumption.
  - apply marked_pre. change ((b_node b, t) :: post) with ([(b_node b, t)] ++ post). apply marked_pre, IH.
Qed.
Lemma mb_split ms b bs : mb ms = b :: bs -> exists ds ms', ms = map MD ds ++ MB b :: ms' /\ mb ms' = bs.
Proof.
  induction ms as [|[d|b'] ms IH]; cbn; intros H; [discriminate| |].
  - destruct (IH H) as (ds & ms' & -> & E). exists (d :: ds), ms'. auto.
  - injection H as -> <-. exists [], ms. auto.
Qed.
Lemma mb_map_MD ds : mb (map MD ds) = [].
Proof. induction ds; [reflexivity|exact IHds]. Qed.
Lemma md_map_MD ds : md (map MD ds) = ds.
Proof. induction ds as [|d ds IH]; [reflexivity|]. cbn. rewrite <- IH at 2. reflexivity. Qed.

(** ** Writing back the delimiters of emph and strong nodes *)
Lemma writes_all_app a wa b wb : writes_all a wa -> writes_all b wb -> writes_all (a ++ b) (wa ++ wb).
Proof.
  revert wa. induction a as [|t a IH]; intros wa Ha Hb; inversion Ha; subst; [exact Hb|].
  cbn. rewrite <- app_assoc. constructor; auto.
Qed.
Lemma writes_all_app_inv a b w : writes_all (a ++ b) w -> exists wa wb, w = wa ++ wb /\ writes_all a wa /\ writes_all b wb.
Proof.
  revert w. induction a as [|t a IH]; intros w H; cbn in H.
  - exists [], w. repeat split; [constructor|exact H].
  - inversion H as [|? ? w1 w2 H1 H2]; subst. apply IH in H2 as (wa & wb & -> & Ha & Hb).
    exists (w1 ++ wa), wb. rewrite app_assoc. repeat split; [constructor; assumption|exact Hb].
Qed.
Lemma writes_text l w : writes (text_node l) w -> w = map TChar l.
Proof. intros H. inversion H as [d k l0 E1 E2|d k c w0 E1|d k c w0 E1|t E1]; subst; cbn in E1; try discriminate; [cbn in E2; injection E2 as ->; reflexivity|congruence]. Qed.
Lemma writes_text_node l : writes (text_node l) (map TChar l).
Proof. apply (w_text (text_data l) [] l); reflexivity. Qed.
Lemma same_tok_refl a : same_tok a a.
Proof. destruct a; constructor. Qed.
Lemma same_refl w : Forall2 same_tok w w.
Proof. induction w; constructor; [apply same_tok_refl|assumption]. Qed.
Lemma same_tok_trans a b c : same_tok a b -> same_tok b c -> same_tok a c.
Proof.
  intros H1 H2. inversion H1 as [x|x y Hx Hy|x y Hx Hy]; subst; [exact H2| |];
    inversion H2 as [z|z v Hz Hv|z v Hz Hv]; subst; auto using st_single, st_double;
    exfalso; cbn in Hy, Hz; lia.
Qed.
Lemma same_trans w1 w2 w3 : Forall2 same_tok w1 w2 -> Forall2 same_tok w2 w3 -> Forall2 same_tok w1 w3.
Proof.
  intros H. revert w3. induction H as [|a b w1 w2 Ha H IH]; intros w3 H3; inversion H3; subst; constructor; eauto using same_tok_trans.
Qed.

(** ** processEmphasis *)
Lemma find_opener_spec c bottom ob l : forall odd o below odd',
  find_opener c bottom ob l odd = (Some (o, below), odd') ->
  exists mid, l = mid ++ o :: below /\ d_cc o = d_cc c /\ Forall (fun d => Some (d_node d) <> bottom) (mid ++ [o]).
Proof.
  induction l as [|x l IH]; intros odd o below odd' H; cbn [find_opener] in H; [discriminate|].
  destruct (id_eqb (Some (d_node x)) bottom || id_eqb (Some (d_node x)) ob) eqn:E; [discriminate|].
  assert (Hx : Some (d_node x) <> bottom).
  { intros <-. cbn in E. rewrite Nat.eqb_refl in E. discriminate. }
  destruct (N.eqb (d_cc x) (d_cc c) && d_can_open x && negb _) eqn:E1.
  - injection H as -> -> _. exists []. cbn. split; [reflexivity|]. split; [|constructor; [exact Hx|constructor]].
    apply andb_prop in E1 as [E1 _]. apply andb_prop in E1 as [E1 _]. apply N.eqb_eq, E1.
  - apply IH in H as (mid & -> & Hc & Hf). exists (x :: mid). cbn. split; [reflexivity|]. split; [exact Hc|]. constructor; assumption.
Qed.
Lemma id_eqb_eq a b : id_eqb a b = true <-> a = b.
Proof.
  destruct a, b; cbn; try (split; congruence). rewrite Nat.eqb_eq. split; congruence.
Qed.
Lemma id_eqb_neq a b : id_eqb a b = false <-> a <> b.
Proof. rewrite <- id_eqb_eq. destruct (id_eqb a b); split; congruence. Qed.
(** an entry between the bottom and the top *)
Definition above (bottom : option nat) (d : delim) : Prop := Some (d_node d) <> bottom.
Lemma first_closer_up bottom down : hd_id down = bottom -> forall up acc, Forall (above bottom) up -> up <> [] ->
  first_closer bottom (up ++ down) acc = (down, rev up ++ acc).
Proof.
  intros Hb. induction up as [|d up IH]; intros acc Hf Hn; [congruence|]. inversion Hf as [|? ? Hd Hf']; subst.
  cbn [app first_closer]. destruct up as [|d' up].
  - cbn [app]. destruct (id_eqb (hd_id down) (hd_id down)) eqn:E; [reflexivity|]. apply id_eqb_neq in E. congruence.
  - cbn [app hd_id]. destruct (id_eqb (Some (d_node d')) (hd_id down)) eqn:E.
    + apply id_eqb_eq in E. inversion Hf'; subst. contradiction.
    + change (d' :: up ++ down) with ((d' :: up) ++ down). rewrite IH by (assumption || discriminate).
      cbn [rev]. rewrite <- !app_assoc. reflexivity.
Qed.
Lemma first_closer_none bottom : forall l acc, l <> [] -> Forall (above bottom) (tl l) -> (bottom = None -> False) ->
  first_closer bottom l acc = ([], []).
Proof.
  induction l as [|d l IH]; intros acc Hn Hf Hb; [congruence|]. cbn [first_closer]. cbn in Hf.
  destruct l as [|d' l].
  - cbn. destruct bottom; [reflexivity|]. exfalso; auto.
  - cbn [hd_id]. inversion Hf as [|? ? Hd Hf']; subst. destruct (id_eqb (Some (d_node d')) bottom) eqn:E.
    + apply id_eqb_eq in E. contradiction.
    + apply IH; [discriminate|exact Hf'|exact Hb].
Qed.
Lemma drop_to_up bottom down : hd_id down = bottom -> forall up, Forall (above bottom) up -> drop_to bottom (up ++ down) = down.
Proof.
  intros Hb. induction up as [|d up IH]; intros Hf.
  - cbn. destruct down as [|d down]; [reflexivity|]. cbn in *. subst. cbn. rewrite Nat.eqb_refl. reflexivity.
  - inversion Hf as [|? ? Hd Hf']; subst. cbn [app drop_to]. destruct (id_eqb (Some (d_node d)) (hd_id down)) eqn:E; [|apply IH, Hf'].
    apply id_eqb_eq in E. contradiction.
Qed.

Lemma measure_app a b : delims_measure (a ++ b) = delims_measure a + delims_measure b.
Proof. unfold delims_measure. induction a as [|d a IH]; cbn [app fold_right]; [reflexivity|]. rewrite IH. lia. Qed.
Lemma measure_rev a : delims_measure (rev a) = delims_measure a.
Proof. induction a as [|d a IH]; [reflexivity|]. cbn [rev]. rewrite measure_app, IH. unfold delims_measure. cbn [fold_right]. lia. Qed.

Lemma app_split_unmatched {A} (a b mid : list A) o below (P : A -> Prop) :
  a ++ b = mid ++ o :: below -> Forall P (mid ++ [o]) -> (match b with [] => True | x :: _ => ~ P x end) ->
  exists below', a = mid ++ o :: below' /\ below = below' ++ b.
Proof.
  revert mid. induction a as [|x a IH]; intros mid E Hf Hb; cbn in E.
  - subst b. destruct mid as [|m mid]; cbn in Hb, Hf; inversion Hf; subst; contradiction.
  - destruct mid as [|m mid]; cbn in E; injection E as -> E.
    + exists a. auto.
    + inversion Hf; subst. destruct (IH mid E) as (below' & -> & ->); auto. exists below'. auto.
Qed.

(** Slices of an emphasis delimiter *)
Lemma repeat_cut (c : N) n k : k <= n -> firstn (length (repeat c n) - k) (repeat c n) = repeat c (n - k).
Proof.
  intros H. rewrite repeat_length. replace n with ((n - k) + k) at 2 by lia. rewrite repeat_app, firstn_app, repeat_length.
  rewrite Nat.sub_diag, firstn_O, app_nil_r. apply firstn_all2. rewrite repeat_length. lia.
Qed.
Lemma delim_text_emph d l : is_emph_char (d_cc d) -> delim_text d l -> 1 <= d_num d /\ l = repeat (d_cc d) (d_num d).
Proof. intros He [(_ & H)|(Hq & _)]; [exact H|]. unfold is_emph_char, is_quote_char in *. intuition congruence. Qed.

Section Emphasis.
  Variable P : tree -> Prop.
  Hypothesis Pemph : forall l, Forall P l -> P (T (new_node emph None) l).
  Hypothesis Pstrong : forall l, Forall P l -> P (T (new_node strong None) l).
  Hypothesis Pdelim : forall c n, is_emph_char c -> 1 <= n -> P (text_node (repeat c n)).
  Hypothesis Pquote : forall c, In c [8216; 8217; 8220; 8221]%N -> P (text_node [c]).

  (** quotes may be turned round only if [qa] *)
  Variable R : tok -> tok -> Prop.
  Variable qa : Prop.
  Hypothesis Rrefl : forall a, R a a.
  Hypothesis Rtrans : forall a b c, R a b -> R b c -> R a c.
  Hypothesis Rquote : qa -> forall a b, same_tok a b -> R a b.
  Definition quote_ok (d : delim) : Prop := is_quote_char (d_cc d) -> qa.
  Lemma R_refl w : Forall2 R w w.
  Proof. induction w; constructor; [apply Rrefl|assumption]. Qed.
  Lemma R_trans w1 w2 w3 : Forall2 R w1 w2 -> Forall2 R w2 w3 -> Forall2 R w1 w3.
  Proof. intros H. revert w3. induction H as [|a b w1 w2 Ha H IH]; intros w3 H3; inversion H3; subst; constructor; eauto. Qed.

  Definition written_as (ks : list (nat * tree)) (w : list tok) : Prop :=
    exists w', writes_all (map snd ks) w' /\ Forall2 R w w'.

  (** What holds while the loop runs: [lup] are the entries of pe_left above the bottom *)
  Record pe_inv (bottom : option nat) (down lup : list delim) (w : list tok) (p : pe) : Prop := {
    pi_left : pe_left p = lup ++ down;
    pi_above : Forall (above bottom) (lup ++ pe_cur p);
    pi_quote : Forall quote_ok (lup ++ pe_cur p);
    pi_marked : marked (map MD (rev lup ++ pe_cur p)) (pe_kids p);
    pi_nodup : NoDup (ids (pe_kids p));
    pi_ids : Forall (fun i => i < pe_next p) (ids (pe_kids p));
    pi_good : Forall P (map snd (pe_kids p));
    pi_written : written_as (pe_kids p) w }.

  Lemma above_down bottom down : hd_id down = bottom -> match down with [] => True | x :: _ => ~ above bottom x end.
  Proof. destruct down as [|x l]; [trivial|]. cbn. unfold above. intros <- H. congruence. Qed.

  (** the siblings around an opener and a closer *)
  Lemma marked_two below o mid c rgt ks : marked (map MD (below ++ o :: mid ++ c :: rgt)) ks -> NoDup (ids ks) ->
    exists k1 lo k2 lc k3, ks = (k1 ++ (d_node o, text_node lo) :: k2) ++ (d_node c, text_node lc) :: k3
      /\ delim_text o lo /\ delim_text c lc
      /\ marked (map MD below) k1 /\ marked (map MD mid) k2 /\ marked (map MD rgt) k3
      /\ split_kid (d_node o) ks = Some (k1, text_node lo, k2 ++ (d_node c, text_node lc) :: k3)
      /\ split_kid (d_node c) (k2 ++ (d_node c, text_node lc) :: k3) = Some (k2, text_node lc, k3).
  Proof.
    intros H Hn. rewrite map_app in H. apply marked_app in H as (ka & kb & -> & Ha & Hb).
    cbn [map] in Hb. apply marked_cons_inv in Hb as (t & pre & post & -> & (lo & -> & Hlo) & Hr). cbn [mark_id] in *.
    rewrite map_app in Hr. apply marked_app in Hr as (kc & kd & -> & Hc & Hd).
    cbn [map] in Hd. apply marked_cons_inv in Hd as (t & pre' & post' & -> & (lc & -> & Hlc) & Hr'). cbn [mark_id] in *.
    exists (ka ++ pre), lo, (kc ++ pre'), lc, post'. split; [rewrite <- !app_assoc; cbn; rewrite <- !app_assoc; reflexivity|].
    split; [exact Hlo|]. split; [exact Hlc|]. split; [apply marked_post, Ha|]. split; [apply marked_post, Hc|]. split; [exact Hr'|].
    split.
    - rewrite (app_assoc ka), (app_assoc kc). apply split_kid_found.
      rewrite (app_assoc ka) in Hn. eapply NoDup_pre. exact Hn.
    - apply split_kid_found. rewrite (app_assoc kc) in Hn. rewrite (app_assoc ka) in Hn. rewrite ids_app in Hn. apply NoDup_app_remove_l in Hn.
      cbn [ids map] in Hn. inversion Hn; subst. eapply NoDup_pre. eassumption.
  Qed.
  Lemma marked_one below c rgt ks : marked (map MD (below ++ c :: rgt)) ks -> NoDup (ids ks) ->
    exists k1 lc k2, ks = k1 ++ (d_node c, text_node lc) :: k2 /\ delim_text c lc
      /\ marked (map MD below) k1 /\ marked (map MD rgt) k2
      /\ split_kid (d_node c) ks = Some (k1, text_node lc, k2).
  Proof.
    intros H Hn. rewrite map_app in H. apply marked_app in H as (ka & kb & -> & Ha & Hb).
    cbn [map] in Hb. apply marked_cons_inv in Hb as (t & pre & post & -> & (lo & -> & Hlo) & Hr). cbn [mark_id] in *.
    exists (ka ++ pre), lo, post. split; [rewrite <- app_assoc; reflexivity|]. split; [exact Hlo|]. split; [apply marked_post, Ha|].
    split; [exact Hr|]. rewrite app_assoc. apply split_kid_found. rewrite app_assoc in Hn. eapply NoDup_pre. exact Hn.
  Qed.

  Lemma NoDup_replace_ids (k1 k2 k1' k2' : list (nat * tree)) : ids k1 = ids k1' -> ids k2 = ids k2' -> NoDup (ids (k1 ++ k2)) -> NoDup (ids (k1' ++ k2')).
  Proof. rewrite !ids_app. intros -> ->. auto. Qed.

  (** changing the text of a quote *)
  Lemma put_quote below c rgt ks q w :
    marked (map MD (below ++ c :: rgt)) ks -> NoDup (ids ks) -> quote_ok c -> is_quote_char (d_cc c) ->
    (d_cc c = 39%N /\ (q = 8216%N \/ q = 8217%N) \/ d_cc c = 34%N /\ (q = 8220%N \/ q = 8221%N)) ->
    Forall P (map snd ks) -> written_as ks w ->
    exists ks', put_kid_literal (d_node c) [q] ks = Ok ks' /\ ids ks' = ids ks /\
      marked (map MD (below ++ c :: rgt)) ks' /\ Forall P (map snd ks') /\ written_as ks' w.
  Proof.
    intros H Hn Hqa Hc Hq Hp (w' & Hw & Hs). destruct (marked_one _ _ _ _ H Hn) as (k1 & lc & k2 & -> & Hlc & H1 & H2 & E).
    exists (k1 ++ (d_node c, text_node [q]) :: k2). unfold put_kid_literal. rewrite E.
    split; [reflexivity|]. split; [unfold ids; rewrite !map_app; reflexivity|].
    assert (Hdt : delim_text c [q]).
    { right. split; [exact Hc|]. destruct Hlc as [(He & _)|(_ & Hn1 & _)].
      - unfold is_emph_char, is_quote_char in *; intuition congruence.
      - split; [exact Hn1|]. intuition congruence. }
    split; [|split].
    - rewrite map_app. apply marked_app. exists k1, ((d_node c, text_node [q]) :: k2). repeat split; [exact H1|].
      cbn [map]. apply (marked_cons (MD c) _ (text_node [q]) []); [|exact H2]. exists [q]. auto.
    - rewrite map_app in *. cbn [map snd] in *. apply Forall_app in Hp as [Hp1 Hp2]. inversion Hp2; subst. apply Forall_app. split; [exact Hp1|].
      constructor; [|assumption]. apply Pquote. cbn. intuition.
    - rewrite map_app in Hw. cbn [map snd] in Hw. apply writes_all_app_inv in Hw as (w1 & w2 & -> & Hw1 & Hw2).
      inversion Hw2 as [|? ? w3 w4 Hw3 Hw4]; subst. apply writes_text in Hw3 as ->.
      exists (w1 ++ [TChar q] ++ w4). split.
      + rewrite map_app. apply writes_all_app; [exact Hw1|]. cbn [map snd]. constructor; [apply (writes_text_node [q])|exact Hw4].
      + eapply R_trans; [exact Hs|]. apply Forall2_app; [apply R_refl|]. apply Forall2_app; [|apply R_refl].
        destruct Hlc as [(He & _)|(_ & Hn1 & Hl)].
        * unfold is_emph_char, is_quote_char in *; intuition congruence.
        * destruct Hl as [[Hl1 [->| ->]]|[Hl1 [->| ->]]]; destruct Hq as [[Hq1 [->| ->]]|[Hq1 [->| ->]]]; try congruence;
            (constructor; [apply (Rquote (Hqa Hc))|constructor]); (solve [apply st_eq] || solve [apply st_single; cbn; auto] || solve [apply st_double; cbn; auto]).
  Qed.

  Lemma written_wrap k1 k2 k3 c n m use eid oid cid w :
    is_emph_char c -> (use = 1 \/ use = 2) -> use <= n -> use <= m ->
    written_as ((k1 ++ (oid, text_node (repeat c n)) :: k2) ++ (cid, text_node (repeat c m)) :: k3) w ->
    written_as (k1 ++ (if Nat.eqb (n - use) 0 then [] else [(oid, text_node (repeat c (n - use)))])
                ++ [(eid, T (new_node (if Nat.eqb use 1 then emph else strong) None) (map snd k2))]
                ++ (if Nat.eqb (m - use) 0 then [] else [(cid, text_node (repeat c (m - use)))]) ++ k3) w.
  Proof.
    intros Hc Hu Hn Hm (w' & Hw & Hs). exists w'. split; [|exact Hs]. clear Hs.
    rewrite !map_app in Hw. cbn [map snd] in Hw. apply writes_all_app_inv in Hw as (w1 & w2 & -> & Hw1 & Hw2).
    apply writes_all_app_inv in Hw1 as (wa & wb & -> & Ha & Hb).
    inversion Hb as [|? ? w3 w4 Hw3 Hw4]; subst. apply writes_text in Hw3 as ->.
    inversion Hw2 as [|? ? w5 w6 Hw5 Hw6]; subst. apply writes_text in Hw5 as ->.
    replace ((wa ++ map TChar (repeat c n) ++ w4) ++ map TChar (repeat c m) ++ w6)
      with (wa ++ map TChar (repeat c (n - use)) ++ (map TChar (repeat c use) ++ w4 ++ map TChar (repeat c use)) ++ map TChar (repeat c (m - use)) ++ w6).
    2:{ replace n with ((n - use) + use) at 2 by lia. replace m with (use + (m - use)) at 2 by lia.
        rewrite !repeat_app, !map_app, <- !app_assoc. reflexivity. }
    rewrite !map_app. apply writes_all_app; [exact Ha|].
    assert (Hopt : forall k (id : nat), writes_all (map snd (if Nat.eqb k 0 then [] else [(id, text_node (repeat c k))])) (map TChar (repeat c k))).
    { intros k id. destruct k as [|k]; cbn [Nat.eqb]; [constructor|]. cbn [map snd]. rewrite <- (app_nil_r (map TChar _)). constructor; [apply writes_text_node|constructor]. }
    apply writes_all_app; [apply Hopt|]. apply writes_all_app; [|apply writes_all_app; [apply Hopt|exact Hw6]].
    cbn [map snd]. rewrite <- (app_nil_r (map TChar (repeat c use) ++ _)). constructor; [|constructor].
    destruct Hu as [->| ->]; cbn [Nat.eqb repeat map app].
    - apply w_emph; [reflexivity|exact Hc|exact Hw4].
    - apply w_strong; [reflexivity|exact Hc|exact Hw4].
  Qed.

  Lemma pe_step_spec bottom down lup w c rgt p :
    hd_id down = bottom -> pe_inv bottom down lup w p -> pe_cur p = c :: rgt ->
    exists p' lup', pe_step bottom c rgt p = Ok p' /\ pe_inv bottom down lup' w p' /\
      delims_measure (pe_cur p') < delims_measure (pe_cur p) /\ pe_next p <= pe_next p'.
  Proof.
    intros Hb [Hleft Habove Hquote Hmark Hnd Hids Hgood Hw] Hcur. rewrite Hcur in *. unfold pe_step. rewrite Hleft.
    assert (Hlt : delims_measure rgt < delims_measure (c :: rgt)) by (unfold delims_measure; cbn [fold_right]; lia).
    apply Forall_app in Habove as [Hal Hac]. inversion Hac as [|? ? Hc Har]; subst. apply Forall_app in Hquote as [Hql Hqc]. inversion Hqc as [|? ? Hqc1 Hqr]; subst.
    assert (Hsame : marked (map MD (rev (c :: lup) ++ rgt)) (pe_kids p)).
    { cbn [rev]. rewrite <- app_assoc. exact Hmark. }
    assert (Hdropc : forall ks, marked (map MD (rev lup ++ c :: rgt)) ks -> marked (map MD (rev lup ++ rgt)) ks).
    { intros ks Hk. rewrite map_app in *. cbn [map] in Hk. change (MD c :: map MD rgt) with ([MD c] ++ map MD rgt) in Hk. apply marked_drop in Hk. exact Hk. }
    destruct (d_can_close c) eqn:Hcc; cbn [negb].
    2:{ eexists; exists (c :: lup). split; [reflexivity|]. split; [constructor; cbn; auto|cbn; split; [exact Hlt|lia]].
        - constructor; [exact Hc|]. apply Forall_app; auto.
        - constructor; [exact Hqc1|]. apply Forall_app; auto. }
    destruct (find_opener c (hd_id down) (ob_get (d_cc c) (pe_ob p)) (lup ++ down) (pe_odd p)) as [found odd] eqn:Ef.
    set (ob' := ob_set (d_cc c) (hd_id (lup ++ down)) (pe_ob p)).
    assert (NF : forall ks, marked (map MD (rev lup ++ c :: rgt)) ks -> ids ks = ids (pe_kids p) -> Forall P (map snd ks) -> written_as ks w ->
      exists p' lup', (if negb odd then Ok (PE (if d_can_open c then c :: lup ++ down else lup ++ down) rgt ob' odd ks (pe_next p))
                       else Ok (PE (c :: lup ++ down) rgt (pe_ob p) odd ks (pe_next p))) = Ok p' /\
        pe_inv (hd_id down) down lup' w p' /\ delims_measure (pe_cur p') < delims_measure (c :: rgt) /\ pe_next p <= pe_next p').
    { intros ks Hk Hi Hg Hwk. assert (Hk' : marked (map MD (rev (c :: lup) ++ rgt)) ks) by (cbn [rev]; rewrite <- app_assoc; exact Hk).
      assert (Hcl : Forall (above (hd_id down)) ((c :: lup) ++ rgt)) by (constructor; [exact Hc|apply Forall_app; auto]).
      assert (Hlr : Forall (above (hd_id down)) (lup ++ rgt)) by (apply Forall_app; auto).
      assert (Hcl2 : Forall quote_ok ((c :: lup) ++ rgt)) by (constructor; [exact Hqc1|apply Forall_app; auto]).
      assert (Hlr2 : Forall quote_ok (lup ++ rgt)) by (apply Forall_app; auto).
      destruct odd; cbn [negb].
      - eexists; exists (c :: lup). split; [reflexivity|]. split; [|split; [exact Hlt|cbn; lia]].
        constructor; cbn [pe_left pe_cur pe_kids pe_next app]; rewrite ?Hi; auto.
      - destruct (d_can_open c).
        + eexists; exists (c :: lup). split; [reflexivity|]. split; [|split; [exact Hlt|cbn; lia]].
          constructor; cbn [pe_left pe_cur pe_kids pe_next app]; rewrite ?Hi; auto.
        + eexists; exists lup. split; [reflexivity|]. split; [|split; [exact Hlt|cbn; lia]].
          constructor; cbn [pe_left pe_cur pe_kids pe_next app]; rewrite ?Hi; auto. }
    assert (HO : forall o below, found = Some (o, below) ->
      exists mid below', lup = mid ++ o :: below' /\ below = below' ++ down /\ d_cc o = d_cc c).
    { intros o below ->. apply find_opener_spec in Ef as (mid & E & Ecc & Hf).
      destruct (app_split_unmatched _ _ _ _ _ _ E Hf (above_down _ down eq_refl)) as (below' & E1 & E2).
      exists mid, below'. auto. }
    destruct (N.eqb (d_cc c) 42 || N.eqb (d_cc c) 95) eqn:Eem.
    - assert (Hem : is_emph_char (d_cc c)) by (unfold is_emph_char; lia).
      destruct found as [[o below]|]; [|apply NF; auto].
      destruct (HO o below eq_refl) as (mid & below' & -> & -> & Ecc). clear HO NF.
      rewrite rev_app_distr in Hmark. cbn [rev] in Hmark. rewrite <- !app_assoc in Hmark. cbn [app] in Hmark.
      destruct (marked_two _ _ _ _ _ _ Hmark Hnd) as (k1 & lo & k2 & lc & k3 & Ek & Hlo & Hlc & Hm1 & Hm2 & Hm3 & S1 & S2).
      assert (Hem' : is_emph_char (d_cc o)) by (rewrite Ecc; exact Hem).
      apply delim_text_emph in Hlo as [Hno ->]; [|exact Hem']. apply delim_text_emph in Hlc as [Hnc ->]; [|exact Hem].
      set (use := if Nat.leb 2 (d_num c) && Nat.leb 2 (d_num o) then 2 else 1).
      assert (Hu : (use = 1 \/ use = 2) /\ use <= d_num o /\ use <= d_num c) by (subst use; destruct (Nat.leb 2 (d_num c) && Nat.leb 2 (d_num o)) eqn:Eu; lia).
      destruct Hu as (Hu & Huo & Huc).
      unfold wrap_emph. rewrite S1, S2. cbn [cut_literal text_node t_data text_data set_n_literal n_literal bind].
      set (dro := Nat.eqb (d_num (set_d_num (d_num o - use) o)) 0). set (drc := Nat.eqb (d_num (set_d_num (d_num c - use) c)) 0).
      rewrite !repeat_cut by assumption.
      change (put_literal (repeat (d_cc o) (d_num o - use)) (text_node (repeat (d_cc o) (d_num o)))) with (text_node (repeat (d_cc o) (d_num o - use))).
      change (put_literal (repeat (d_cc c) (d_num c - use)) (text_node (repeat (d_cc c) (d_num c)))) with (text_node (repeat (d_cc c) (d_num c - use))).
      eexists; exists ((if dro then [] else [set_d_num (d_num o - use) o]) ++ below'). split; [reflexivity|].
      rewrite <- (app_assoc k1), <- app_comm_cons in Ek.
      assert (Hfresh : ~ In (pe_next p) (ids (pe_kids p))).
      { rewrite Forall_forall in Hids. intros Hin. apply Hids in Hin. lia. }
      assert (Hlst : incl (ids (k1 ++ (if dro then [] else [(d_node o, text_node (repeat (d_cc o) (d_num o - use)))]) ++
                 (if drc then [] else [(d_node c, text_node (repeat (d_cc c) (d_num c - use)))]) ++ k3)) (ids (pe_kids p))).
      { rewrite Ek. intros i. rewrite !ids_app. cbn [ids map fst]. rewrite !map_app. cbn [map fst]. fold (ids k1) (ids k2) (ids k3).
        rewrite !in_app_iff. destruct dro, drc; cbn; rewrite ?in_app_iff; cbn; intuition. }
      split; [constructor; cbn [pe_left pe_cur pe_kids pe_next]|].
      + destruct dro; reflexivity.
      + apply Forall_app in Hal as [Hal1 Hal2]. inversion Hal2; subst.
        apply Forall_app. split.
        * apply Forall_app. split; [|assumption]. destruct dro; constructor; [assumption|constructor].
        * destruct drc; [assumption|]. constructor; assumption.
      + apply Forall_app in Hql as [Hal1 Hal2]. inversion Hal2; subst.
        apply Forall_app. split.
        * apply Forall_app. split; [|assumption]. destruct dro; constructor; [assumption|constructor].
        * destruct drc; [assumption|]. constructor; assumption.
      + rewrite map_app. apply marked_app.
        exists (k1 ++ (if dro then [] else [(d_node o, text_node (repeat (d_cc o) (d_num o - use)))])),
          ([(pe_next p, T (new_node (if Nat.eqb use 1 then emph else strong) None) (map snd k2))] ++
             (if drc then [] else [(d_node c, text_node (repeat (d_cc c) (d_num c - use)))]) ++ k3).
        split; [rewrite <- app_assoc; reflexivity|]. split.
        * rewrite rev_app_distr, map_app. apply marked_app.
          exists k1, (if dro then [] else [(d_node o, text_node (repeat (d_cc o) (d_num o - use)))]).
          split; [reflexivity|]. split; [exact Hm1|]. destruct dro eqn:Ed; [constructor|]. subst dro. cbn [d_num set_d_num] in Ed.
          apply (marked_cons (MD (set_d_num (d_num o - use) o)) [] (text_node (repeat (d_cc o) (d_num o - use))) [] []); [|constructor]. eexists. split; [reflexivity|]. left. cbn [d_cc d_num set_d_num].
          split; [exact Hem'|]. split; [lia|reflexivity].
        * apply marked_pre. destruct drc eqn:Ed; [exact Hm3|]. subst drc. cbn [d_num set_d_num] in Ed. cbn [map app].
          apply (marked_cons (MD (set_d_num (d_num c - use) c)) (map MD rgt) (text_node (repeat (d_cc c) (d_num c - use))) [] k3); [|exact Hm3]. eexists. split; [reflexivity|]. left. cbn [d_cc d_num set_d_num].
          split; [exact Hem|]. split; [lia|reflexivity].
      + (* NoDup *)
        rewrite Ek in Hnd, Hfresh. rewrite !ids_app in *. cbn [ids map fst] in *. rewrite !map_app in *. cbn [map fst] in *.
        fold (ids k1) (ids k2) (ids k3) in *.
        assert (G : NoDup (ids k1 ++ (if dro then [] else [d_node o]) ++ (if drc then [] else [d_node c]) ++ ids k3)).
        { assert (G0 : NoDup (ids k1 ++ [d_node o] ++ [d_node c] ++ ids k3)).
          { change (ids k1 ++ d_node o :: ids k2 ++ d_node c :: ids k3) with (ids k1 ++ [d_node o] ++ ids k2 ++ [d_node c] ++ ids k3) in Hnd.
            rewrite app_assoc in Hnd |- *. apply NoDup_app_remove_mid in Hnd. exact Hnd. }
          destruct dro, drc; cbn [app] in *.
          - apply NoDup_remove_1 in G0. apply NoDup_remove_1 in G0. exact G0.
          - apply NoDup_remove_1 in G0. exact G0.
          - pose proof (NoDup_app_remove_mid (ids k1 ++ [d_node o]) [d_node c] (ids k3)) as RM0. rewrite <- !app_assoc in RM0. exact (RM0 G0).
          - exact G0. }
        replace (ids (if dro then [] else [(d_node o, text_node (repeat (d_cc o) (d_num o - use)))])) with (if dro then [] else [d_node o]) by (destruct dro; reflexivity).
        replace (ids (if drc then [] else [(d_node c, text_node (repeat (d_cc c) (d_num c - use)))])) with (if drc then [] else [d_node c]) by (destruct drc; reflexivity).
        rewrite app_assoc in G |- *. apply NoDup_insert; [exact G|]. intros Hin. apply Hfresh. rewrite !in_app_iff in Hin. rewrite !in_app_iff. cbn. rewrite !in_app_iff. cbn.
        destruct dro, drc; cbn in Hin; intuition.
      + rewrite Forall_forall in Hids |- *. intros i Hin.
        assert (Hi : i = pe_next p \/ In i (ids (pe_kids p))).
        { rewrite !ids_app in Hin. rewrite !in_app_iff in Hin. cbn in Hin. destruct Hin as [Hin|[Hin|[[Hin|[]]|Hin]]]; [| |left; auto|].
          - right. apply Hlst. rewrite !ids_app, !in_app_iff. auto.
          - right. apply Hlst. rewrite !ids_app, !in_app_iff. auto.
          - right. apply Hlst. rewrite !ids_app, !in_app_iff. tauto. }
        destruct Hi as [->|Hi]; [lia|]. apply Hids in Hi. lia.
      + rewrite Ek in Hgood. rewrite !map_app in *. cbn [map snd] in *. rewrite !map_app in *. cbn [map snd] in *.
        apply Forall_app in Hgood as [G1 G2]. inversion G2 as [|? ? G3 G4]; subst. apply Forall_app in G4 as [G4 G5]. inversion G5 as [|? ? G6 G7]; subst.
        apply Forall_app. split; [exact G1|]. apply Forall_app. split; [destruct dro eqn:Ed; [constructor|]; subst dro; cbn [d_num set_d_num] in Ed; constructor; [|constructor]; apply Pdelim; [exact Hem'|lia]|].
        apply Forall_app. split; [constructor; [|constructor]; destruct Hu as [-> | ->]; cbn [Nat.eqb]; auto|].
        apply Forall_app. split; [destruct drc eqn:Ed; [constructor|]; subst drc; cbn [d_num set_d_num] in Ed; constructor; [|constructor]; apply Pdelim; [exact Hem|lia]|exact G7].
      + rewrite Ek in Hw. rewrite <- Ecc in Hw |- *. subst dro drc. cbn [d_num set_d_num]. apply written_wrap; auto.
        rewrite <- app_assoc. exact Hw.
      + cbn [pe_cur pe_next]. split; [|lia]. unfold delims_measure. destruct drc; cbn [fold_right d_num set_d_num]; lia.
    - destruct (if N.eqb (d_cc c) 39 then (8217%N, 8216%N) else (8221%N, 8220%N)) as [qc qo] eqn:Eq.
      destruct (marked_one _ _ _ _ Hmark Hnd) as (_ & l0 & _ & _ & Hl0 & _).
      assert (Hq : is_quote_char (d_cc c)).
      { destruct Hl0 as [(He & _)|(Hq & _)]; [|exact Hq]. unfold is_emph_char in He. lia. }
      assert (HQc : d_cc c = 39%N /\ (qc = 8216%N \/ qc = 8217%N) \/ d_cc c = 34%N /\ (qc = 8220%N \/ qc = 8221%N)).
      { destruct Hq as [Hq|Hq]; rewrite Hq in Eq |- *; cbn in Eq; injection Eq as <- <-; auto. }
      assert (HQo : d_cc c = 39%N /\ (qo = 8216%N \/ qo = 8217%N) \/ d_cc c = 34%N /\ (qo = 8220%N \/ qo = 8221%N)).
      { destruct Hq as [Hq|Hq]; rewrite Hq in Eq |- *; cbn in Eq; injection Eq as <- <-; auto. }
      destruct (put_quote _ _ _ _ _ _ Hmark Hnd Hqc1 Hq HQc Hgood Hw) as (ks & -> & Hki & Hkm & Hkg & Hkw). cbn [bind].
      destruct found as [[o below]|]; [|apply NF; auto].
      destruct (HO o below eq_refl) as (mid & below' & -> & -> & Ecc). clear HO.
      assert (Hkm' : marked (map MD (rev below' ++ o :: rev mid ++ c :: rgt)) ks).
      { rewrite rev_app_distr in Hkm. cbn [rev] in Hkm. rewrite <- !app_assoc in Hkm. exact Hkm. }
      assert (Hnd' : NoDup (ids ks)) by (rewrite Hki; exact Hnd).
      rewrite <- Ecc in Hq, HQo. assert (Hqo : quote_ok o) by (apply Forall_app in Hql as [_ Hql]; inversion Hql; assumption).
      destruct (put_quote _ _ _ _ _ _ Hkm' Hnd' Hqo Hq HQo Hkg Hkw) as (ks' & -> & Hki' & Hkm2 & Hkg2 & Hkw2). cbn [bind].
      eexists; exists (c :: mid ++ o :: below'). split; [reflexivity|]. split; [|cbn; split; [exact Hlt|lia]].
      constructor; cbn [pe_left pe_cur pe_kids pe_next app]; rewrite ?Hki', ?Hki; auto.
      + constructor; [exact Hc|]. apply Forall_app; auto.
      + constructor; [exact Hqc1|]. apply Forall_app; auto.
      + cbn [rev]. rewrite rev_app_distr. cbn [rev]. rewrite <- !app_assoc. exact Hkm2.
  Qed.

  Lemma pe_loop_spec bottom down w : hd_id down = bottom -> forall n lup p,
    pe_inv bottom down lup w p -> delims_measure (pe_cur p) <= n ->
    exists p' lup', pe_loop n bottom p = Ok p' /\ pe_inv bottom down lup' w p' /\ pe_next p <= pe_next p'.
  Proof.
    intros Hb. induction n as [|n IH]; intros lup p Hi Hn; cbn [pe_loop].
    - destruct (pe_cur p) as [|c rgt] eqn:E; [|exfalso; unfold delims_measure in Hn; cbn [fold_right] in Hn; lia]. exists p, lup. auto.
    - destruct (pe_cur p) as [|c rgt] eqn:E; [exists p, lup; auto|].
      destruct (pe_step_spec _ _ _ _ _ _ _ Hb Hi E) as (p1 & lup1 & -> & Hi1 & Hm & Hx). cbn [bind].
      rewrite E in Hm. destruct (IH lup1 p1 Hi1) as (p2 & lup2 & -> & Hi2 & Hx2); [lia|]. exists p2, lup2. split; [reflexivity|]. split; [exact Hi2|lia].
  Qed.

  Theorem processEmphasis_spec bottom up down ks next w :
    hd_id down = bottom -> NoDup (map d_node (up ++ down)) -> marked (map MD (rev up)) ks -> NoDup (ids ks) ->
    Forall (fun i => i < next) (ids ks) -> Forall P (map snd ks) -> Forall quote_ok up -> written_as ks w ->
    exists ks' next', processEmphasis bottom (up ++ down) ks next = Ok (down, ks', next') /\ next <= next' /\
      NoDup (ids ks') /\ Forall (fun i => i < next') (ids ks') /\ Forall P (map snd ks') /\ written_as ks' w.
  Proof.
    intros Hb Hnd Hm Hn Hi Hg Hq Hw.
    assert (Hab : Forall (above bottom) up).
    { rewrite map_app in Hnd. apply Forall_forall. intros d Hd E. destruct down as [|x l]; cbn in Hb; subst bottom; [discriminate|].
      injection E as E. cbn in Hnd. apply NoDup_remove_2 in Hnd. apply Hnd, in_or_app. left. rewrite <- E. apply in_map, Hd. }
    unfold processEmphasis. destruct up as [|d up].
    - cbn [app]. assert (E : first_closer bottom down [] = ([], [])).
      { destruct down as [|x l]; [reflexivity|]. apply first_closer_none; [discriminate| |cbn in Hb; rewrite <- Hb; discriminate].
        cbn [tl]. apply Forall_forall. intros y Hy E. subst bottom. cbn in E, Hnd. injection E as E. inversion Hnd as [|? ? Hx1 Hx2]; subst. apply Hx1. rewrite <- E. apply in_map, Hy. }
      rewrite E. exists ks, next. assert (E2 : drop_to bottom down = down) by (apply (drop_to_up bottom down Hb []); constructor). rewrite E2. repeat split; auto.
    - rewrite (first_closer_up bottom down Hb (d :: up) [] Hab) by discriminate. rewrite app_nil_r.
      destruct (rev (d :: up)) as [|x l] eqn:Er.
      { apply (f_equal (@length _)) in Er. rewrite rev_length in Er. discriminate. }
      rewrite <- Er. assert (Hi0 : pe_inv bottom down [] w (PE down (rev (d :: up)) (OB bottom bottom bottom bottom) false ks next)).
      { constructor; cbn [pe_left pe_cur pe_kids pe_next app]; try assumption; [reflexivity|apply Forall_rev, Hab|apply Forall_rev, Hq|rewrite Er; exact Hm]. }
      destruct (pe_loop_spec bottom down w Hb (S (delims_measure ((d :: up) ++ down))) [] _ Hi0) as (p & lup & -> & Hi1 & Hx).
      { cbn [pe_cur]. rewrite measure_rev, measure_app. lia. }
      cbn [bind]. destruct Hi1 as [H1 H2 H2' H3 H4 H5 H6 H7]. rewrite H1, (drop_to_up bottom down Hb) by (apply Forall_app in H2; tauto).
      exists (pe_kids p), (pe_next p). cbn [pe_next] in Hx. repeat split; auto.
  Qed.
End Emphasis.
