(** * Facts about the matcher of Regex.v

    [results r st] lists all ways in which [r] matches at [st], in the order of preference;
    the continuation-passing matcher tries them in this order. *)
From Verif Require Import Base Regex.

Lemma Ok_inj {A} (a b : A) : Ok a = Ok b -> a = b.
Proof. congruence. Qed.
Lemma Some_inj {A} (a b : A) : Some a = Some b -> a = b.
Proof. congruence. Qed.

Fixpoint first_some {A B} (k : A -> option B) (l : list A) : option B :=
  match l with
  | [] => None
  | x :: l' => match k x with Some y => Some y | None => first_some k l' end
  end.

Fixpoint times_res (body : mst -> list mst) (n : nat) (st : mst) : list mst :=
  match n with O => [st] | S n' => flat_map (times_res body n') (body st) end.

Definition shorter (a b : mst) : bool := Nat.ltb (length (ms_rest a)) (length (ms_rest b)).

Fixpoint upto_res (body : mst -> list mst) (greedy : bool) (n : nat) (st : mst) : list mst :=
  match n with
  | O => [st]
  | S n' =>
      let more := flat_map (fun st' => if shorter st' st then upto_res body greedy n' st' else [])
                           (body st) in
      if greedy then more ++ [st] else st :: more
  end.

Fixpoint results (r : regex) (st : mst) {struct r} : list mst :=
  match r with
  | REps => [st]
  | RChr cs => match ms_rest st with
               | [] => []
               | c :: s' => if cmatch cs c then [MS (Some c) s' (ms_caps st)] else []
               end
  | RSeq a b => flat_map (results b) (results a st)
  | RAlt a b => results a st ++ results b st
  | RRep g mn mx a =>
      flat_map (fun st' =>
                  let room := length (ms_rest st') in
                  upto_res (results a) g
                    (match mx with Some M => Nat.min (M - mn) room | None => room end) st')
               (times_res (results a) mn st)
  | RGrp n a =>
      map (fun st' => MS (ms_prev st') (ms_rest st')
                        ((n, firstn (length (ms_rest st) - length (ms_rest st')) (ms_rest st))
                           :: ms_caps st')) (results a st)
  | RBol => match ms_prev st with None => [st] | Some _ => [] end
  | RBolM => match ms_prev st with
             | None => [st]
             | Some c => if N.eqb c LF then [st] else []
             end
  | REol => match ms_rest st with
            | [] => [st]
            | [c] => if N.eqb c LF then [st] else []
            | _ => []
            end
  | RLook neg a =>
      match results a st with
      | [] => if neg then [st] else []
      | _ => if neg then [] else [st]
      end
  end.

Lemma first_some_app {A B} (k : A -> option B) l1 l2 :
  first_some k (l1 ++ l2) = match first_some k l1 with Some y => Some y | None => first_some k l2 end.
Proof. induction l1 as [|x l IH]; cbn; [reflexivity|]. destruct (k x); [reflexivity|exact IH]. Qed.

Lemma first_some_flat_map {A B C} (k : B -> option C) (f : A -> list B) l :
  first_some k (flat_map f l) = first_some (fun x => first_some k (f x)) l.
Proof.
  induction l as [|x l IH]; cbn; [reflexivity|]. rewrite first_some_app, IH. reflexivity.
Qed.

Lemma first_some_ext {A B} (k k' : A -> option B) l :
  (forall x, k x = k' x) -> first_some k l = first_some k' l.
Proof. intros H. induction l as [|x l IH]; cbn; [reflexivity|]. rewrite H, IH. reflexivity. Qed.

Lemma first_some_map {A B C} (k : B -> option C) (f : A -> B) l :
  first_some k (map f l) = first_some (fun x => k (f x)) l.
Proof. induction l as [|x l IH]; cbn; [reflexivity|]. rewrite IH. reflexivity. Qed.

Lemma first_some_id {A} (l : list A) : first_some (fun x => Some x) l = hd_error l.
Proof. destruct l; reflexivity. Qed.

Lemma times_results body bres :
  (forall k st, body k st = first_some k (bres st)) ->
  forall n k st, times body n k st = first_some k (times_res bres n st).
Proof.
  intros H. induction n as [|n IH]; intros k st; cbn.
  - destruct (k st); reflexivity.
  - rewrite H, first_some_flat_map. apply first_some_ext. intros x. apply IH.
Qed.

Lemma upto_results body bres g :
  (forall k st, body k st = first_some k (bres st)) ->
  forall n k st, upto body g n k st = first_some k (upto_res bres g n st).
Proof.
  intros H. induction n as [|n IH]; intros k st; cbn [upto upto_res].
  - cbn. destruct (k st); reflexivity.
  - destruct g; cbn [first_some].
    + rewrite first_some_app, first_some_flat_map, H.
      rewrite (first_some_ext _ (fun x => first_some k (if shorter x st then upto_res bres true n x else []))).
      2:{ intros x. unfold shorter. destruct (Nat.ltb (length (ms_rest x)) _); [apply IH|reflexivity]. }
      destruct (first_some _ (bres st)); [reflexivity|]. cbn. destruct (k st); reflexivity.
    + destruct (k st); [reflexivity|]. rewrite first_some_flat_map, H.
      apply first_some_ext. intros x. unfold shorter. destruct (Nat.ltb (length (ms_rest x)) _); [apply IH|reflexivity].
Qed.

Lemma mtch_results r : forall k st, mtch r k st = first_some k (results r st).
Proof.
  induction r as [|cs|a IHa b IHb|a IHa b IHb|g mn mx a IHa|n a IHa| | | |neg a IHa]; intros k st; cbn.
  - destruct (k st); reflexivity.
  - destruct (ms_rest st) as [|c s]; [reflexivity|]. destruct (cmatch cs c); [|reflexivity].
    cbn. destruct (k _); reflexivity.
  - rewrite IHa, first_some_flat_map. apply first_some_ext. intros x. apply IHb.
  - rewrite first_some_app, <- IHa, <- IHb. reflexivity.
  - rewrite (times_results _ _ IHa), first_some_flat_map. apply first_some_ext. intros x.
    apply upto_results. exact IHa.
  - rewrite IHa, first_some_map. reflexivity.
  - destruct (ms_prev st); cbn; [reflexivity|]. destruct (k st); reflexivity.
  - destruct (ms_prev st) as [c|]; cbn; [destruct (N.eqb c LF); [|reflexivity]|]; cbn; destruct (k st); reflexivity.
  - destruct (ms_rest st) as [|c [|d s]]; cbn; [destruct (k st); reflexivity| |reflexivity].
    destruct (N.eqb c LF); cbn; [destruct (k st)|]; reflexivity.
  - rewrite IHa, first_some_id. destruct (results a st); cbn.
    + destruct neg; cbn; [destruct (k st)|]; reflexivity.
    + destruct neg; cbn; [|destruct (k st)]; reflexivity.
Qed.

Lemma match_at_results r prev s :
  match_at r prev s =
  match results r (MS prev s []) with
  | [] => None
  | st :: _ => Some (firstn (length s - length (ms_rest st)) s, ms_rest st, ms_caps st)
  end.
Proof.
  unfold match_at. rewrite mtch_results, first_some_id. destruct (results _ _); reflexivity.
Qed.

(** ** What a match consumes *)

(** [st'] is reached from [st] by consuming [g] *)
Definition eats (g : str) (st st' : mst) : Prop :=
  ms_rest st = g ++ ms_rest st' /\
  ms_prev st' = match last_opt g with Some c => Some c | None => ms_prev st end.

Lemma last_opt_cons {A} (x : A) l :
  last_opt (x :: l) = match last_opt l with Some y => Some y | None => Some x end.
Proof.
  revert x. induction l as [|y l IH]; intros x; [reflexivity|].
  change (last_opt (x :: y :: l)) with (last_opt (y :: l)). rewrite IH. destruct (last_opt l); reflexivity.
Qed.
Lemma last_opt_app {A} (l1 l2 : list A) :
  last_opt (l1 ++ l2) = match last_opt l2 with Some x => Some x | None => last_opt l1 end.
Proof.
  induction l1 as [|x l IH]; cbn [app].
  - cbn. destruct (last_opt l2); reflexivity.
  - rewrite !last_opt_cons, IH. destruct (last_opt l2); reflexivity.
Qed.

Lemma eats_refl st : eats [] st st.
Proof. split; reflexivity. Qed.
Lemma eats_trans g1 g2 a b c : eats g1 a b -> eats g2 b c -> eats (g1 ++ g2) a c.
Proof.
  intros [H1 P1] [H2 P2]. split.
  - rewrite H1, H2, app_assoc. reflexivity.
  - rewrite last_opt_app, P2. destruct (last_opt g2); [reflexivity|exact P1].
Qed.

Lemma times_res_eats body :
  (forall st st', In st' (body st) -> exists g, eats g st st') ->
  forall n st st', In st' (times_res body n st) -> exists g, eats g st st'.
Proof.
  intros H. induction n as [|n IH]; cbn; intros st st' Hin.
  - destruct Hin as [->|[]]. exists []. apply eats_refl.
  - apply in_flat_map in Hin as (x & Hx & Hin). destruct (H _ _ Hx) as [g1 E1].
    destruct (IH _ _ Hin) as [g2 E2]. exists (g1 ++ g2). eapply eats_trans; eassumption.
Qed.

Lemma upto_res_eats body g :
  (forall st st', In st' (body st) -> exists g, eats g st st') ->
  forall n st st', In st' (upto_res body g n st) -> exists g, eats g st st'.
Proof.
  intros H. induction n as [|n IH]; cbn; intros st st' Hin.
  - destruct Hin as [->|[]]. exists []. apply eats_refl.
  - assert (Hin' : st = st' \/ In st' (flat_map
              (fun st' => if shorter st' st then upto_res body g n st' else []) (body st))).
    { destruct g.
      - apply in_app_or in Hin as [Hin|[->|[]]]; [right|left]; auto.
      - destruct Hin as [->|Hin]; [left|right]; auto. }
    destruct Hin' as [->|Hin']; [exists []; apply eats_refl|].
    apply in_flat_map in Hin' as (x & Hx & Hin'). destruct (shorter x st); [|destruct Hin'].
    destruct (H _ _ Hx) as [g1 E1]. destruct (IH _ _ Hin') as [g2 E2].
    exists (g1 ++ g2). eapply eats_trans; eassumption.
Qed.

Lemma results_eats r : forall st st', In st' (results r st) -> exists g, eats g st st'.
Proof.
  induction r as [|cs|a IHa b IHb|a IHa b IHb|g mn mx a IHa|n a IHa| | | |neg a IHa]; intros st st' Hin; cbn in Hin.
  - destruct Hin as [->|[]]. exists []. apply eats_refl.
  - destruct (ms_rest st) as [|c s] eqn:E; [destruct Hin|]. destruct (cmatch cs c); [|destruct Hin].
    destruct Hin as [<-|[]]. exists [c]. split; [exact E|reflexivity].
  - apply in_flat_map in Hin as (x & Hx & Hin). destruct (IHa _ _ Hx) as [g1 E1].
    destruct (IHb _ _ Hin) as [g2 E2]. exists (g1 ++ g2). eapply eats_trans; eassumption.
  - apply in_app_or in Hin as [H|H]; [apply IHa|apply IHb]; exact H.
  - apply in_flat_map in Hin as (x & Hx & Hin).
    destruct (times_res_eats _ IHa _ _ _ Hx) as [g1 E1].
    destruct (upto_res_eats _ g IHa _ _ _ Hin) as [g2 E2].
    exists (g1 ++ g2). eapply eats_trans; eassumption.
  - apply in_map_iff in Hin as (x & <- & Hx). destruct (IHa _ _ Hx) as [g1 E1].
    exists g1. exact E1.
  - destruct (ms_prev st); [destruct Hin|]. destruct Hin as [->|[]]. exists []. apply eats_refl.
  - destruct (ms_prev st) as [c|]; [destruct (N.eqb c LF)|]; try destruct Hin as [->|[]]; try destruct Hin;
      exists []; apply eats_refl.
  - destruct (ms_rest st) as [|c [|d s]]; [| |destruct Hin].
    + destruct Hin as [->|[]]. exists []. apply eats_refl.
    + destruct (N.eqb c LF); [|destruct Hin]. destruct Hin as [->|[]]. exists []. apply eats_refl.
  - destruct (results a st), neg; try destruct Hin as [->|[]]; try destruct Hin; exists []; apply eats_refl.
Qed.

Lemma firstn_sub {A} (a b : list A) : firstn (length (a ++ b) - length b) (a ++ b) = a.
Proof.
  rewrite app_length. replace (length a + length b - length b) with (length a) by lia.
  rewrite firstn_app, firstn_all, Nat.sub_diag. cbn. apply app_nil_r.
Qed.

(** What [match_at] returns *)
Lemma match_at_spec r prev s g a caps :
  match_at r prev s = Some (g, a, caps) ->
  s = g ++ a /\ exists st, hd_error (results r (MS prev s [])) = Some st
                           /\ ms_rest st = a /\ ms_caps st = caps /\ eats g (MS prev s []) st.
Proof.
  rewrite match_at_results. destruct (results r (MS prev s [])) as [|st l] eqn:E; [discriminate|].
  intros H. injection H as Hg Ha Hc.
  assert (Hin : In st (results r (MS prev s []))) by (rewrite E; left; reflexivity).
  destruct (results_eats _ _ _ Hin) as [g' [H1 H2]]. cbn in H1.
  assert (g = g') as ->.
  { rewrite <- Hg, H1, app_length.
    replace (length g' + length (ms_rest st) - length (ms_rest st)) with (length g') by lia.
    rewrite firstn_app, firstn_all, Nat.sub_diag. cbn. apply app_nil_r. }
  split; [rewrite H1, Ha; reflexivity|].
  exists st. repeat split; auto.
Qed.

Lemma match_at_none r prev s : match_at r prev s = None <-> results r (MS prev s []) = [].
Proof. rewrite match_at_results. destruct (results _ _); split; congruence. Qed.

(** ** Search *)

(** previous character after consuming [g] *)
Definition prev_of (prev : option N) (g : str) : option N :=
  match last_opt g with Some c => Some c | None => prev end.
Lemma prev_of_app p g1 g2 : prev_of p (g1 ++ g2) = prev_of (prev_of p g1) g2.
Proof. unfold prev_of. rewrite last_opt_app. destruct (last_opt g2); reflexivity. Qed.

Lemma search_from_some r : forall s prev before m,
  search_from r prev before s = Some m ->
  exists pre, s = pre ++ rm_group m ++ rm_after m
              /\ rm_before m = rev before ++ pre
              /\ match_at r (prev_of prev pre) (rm_group m ++ rm_after m)
                 = Some (rm_group m, rm_after m, rm_caps m)
              /\ (forall p q, pre = p ++ q -> q <> [] ->
                    match_at r (prev_of prev p) (q ++ rm_group m ++ rm_after m) = None).
Proof.
  induction s as [|c s IH]; intros prev before m; cbn; destruct (match_at r prev _) as [[[g a] caps]|] eqn:E.
  - intros H. injection H as <-. cbn. exists [].
    destruct (match_at_spec _ _ _ _ _ _ E) as [Hs _].
    destruct g, a; try discriminate Hs. cbn. rewrite app_nil_r. split; [reflexivity|]. split; [reflexivity|].
    split; [exact E|]. intros p q Hpq Hq. symmetry in Hpq. apply app_eq_nil in Hpq as [_ ->]. congruence.
  - discriminate.
  - intros H. injection H as <-. cbn. exists [].
    destruct (match_at_spec _ _ _ _ _ _ E) as [Hs _]. cbn. rewrite app_nil_r. split; [exact Hs|]. split; [reflexivity|].
    split; [rewrite <- Hs; exact E|]. intros p q Hpq Hq. symmetry in Hpq. apply app_eq_nil in Hpq as [_ ->]. congruence.
  - intros H. destruct (IH _ _ _ H) as (pre & H1 & H2 & H3 & H4). exists (c :: pre).
    assert (Hp : forall l, prev_of prev (c :: l) = prev_of (Some c) l)
      by (intros l; change (c :: l) with ([c] ++ l); rewrite prev_of_app; reflexivity).
    split; [cbn; rewrite H1 at 1; reflexivity|]. split; [rewrite H2; cbn; rewrite <- app_assoc; reflexivity|].
    split; [rewrite Hp; exact H3|].
    intros p q Hpq Hq. destruct p as [|d p].
    + cbn in Hpq. subst q. cbn. rewrite <- H1. exact E.
    + injection Hpq as -> ->. rewrite Hp. apply H4; auto.
Qed.

Lemma search_from_none r : forall s prev before,
  search_from r prev before s = None <->
  (forall p q, s = p ++ q -> match_at r (prev_of prev p) q = None).
Proof.
  induction s as [|c s IH]; intros prev before; cbn; destruct (match_at r prev _) as [[[g a] caps]|] eqn:E.
  - split; [discriminate|]. intros H. specialize (H [] [] eq_refl). change (match_at r prev [] = None) in H. congruence.
  - split; [|reflexivity]. intros _ p q Hpq. symmetry in Hpq. apply app_eq_nil in Hpq as [-> ->]. exact E.
  - split; [discriminate|]. intros H. specialize (H [] (c :: s) eq_refl). change (match_at r prev (c :: s) = None) in H. congruence.
  - rewrite IH.
    assert (Hp : forall l, prev_of prev (c :: l) = prev_of (Some c) l)
      by (intros l; change (c :: l) with ([c] ++ l); rewrite prev_of_app; reflexivity).
    split; intros H p q Hpq.
    + destruct p as [|d p]; [cbn in Hpq; subst q; exact E|]. injection Hpq as -> ->. rewrite Hp. apply H. reflexivity.
    + rewrite <- Hp. apply H. rewrite Hpq. reflexivity.
Qed.

Lemma re_search_some r s m :
  re_search r s = Some m ->
  s = rm_before m ++ rm_group m ++ rm_after m
  /\ match_at r (prev_of None (rm_before m)) (rm_group m ++ rm_after m)
     = Some (rm_group m, rm_after m, rm_caps m)
  /\ (forall p q, rm_before m = p ++ q -> q <> [] ->
        match_at r (prev_of None p) (q ++ rm_group m ++ rm_after m) = None).
Proof.
  intros H. apply search_from_some in H as (pre & H1 & H2 & H3 & H4).
  cbn in H2. subst pre. auto.
Qed.
Lemma re_search_none r s :
  re_search r s = None <-> (forall p q, s = p ++ q -> match_at r (prev_of None p) q = None).
Proof. apply search_from_none. Qed.

Lemma re_test_true r s :
  re_test r s = true <-> exists p q, s = p ++ q /\ results r (MS (prev_of None p) q []) <> [].
Proof.
  unfold re_test. destruct (re_search r s) as [m|] eqn:E.
  - split; [intros _|reflexivity]. apply re_search_some in E as (H1 & H2 & _).
    exists (rm_before m), (rm_group m ++ rm_after m). split; [exact H1|].
    intros H. apply match_at_none in H. congruence.
  - split; [discriminate|]. intros (p & q & H1 & H2).
    rewrite re_search_none in E. exfalso. apply H2. apply match_at_none. apply E. exact H1.
Qed.
Lemma re_test_false r s :
  re_test r s = false <-> (forall p q, s = p ++ q -> results r (MS (prev_of None p) q []) = []).
Proof.
  unfold re_test. destruct (re_search r s) as [m|] eqn:E.
  - split; [discriminate|]. intros H. apply re_search_some in E as (H1 & H2 & _).
    apply (H (rm_before m)) in H1. apply match_at_none in H1. congruence.
  - split; [intros _|reflexivity]. intros p q Hpq.
    rewrite re_search_none in E. apply match_at_none. apply E. exact Hpq.
Qed.

(** A pattern that starts with [^] matches only at the start. *)
Lemma prev_of_cons p c l : exists x, prev_of p (c :: l) = Some x.
Proof.
  revert p c. induction l as [|d l IH]; intros p c; [exists c; reflexivity|].
  change (c :: d :: l) with ([c] ++ d :: l). rewrite prev_of_app. apply IH.
Qed.
Lemma search_from_bol r : forall s c before,
  search_from (RSeq RBol r) (Some c) before s = None.
Proof.
  intros s c before. apply search_from_none. intros p q _.
  apply match_at_none. cbn. unfold prev_of. destruct (last_opt p); reflexivity.
Qed.
Lemma re_search_bol r s :
  re_search (RSeq RBol r) s =
  match match_at r None s with Some (g, a, caps) => Some (RM [] g a caps) | None => None end.
Proof.
  unfold re_search.
  assert (H : match_at (RSeq RBol r) None s = match_at r None s) by reflexivity.
  destruct s as [|c s]; cbn [search_from]; rewrite H; destruct (match_at r None _) as [[[g a] caps]|];
    try reflexivity. apply search_from_bol.
Qed.
Lemma re_test_bol r s :
  re_test (RSeq RBol r) s = match match_at r None s with Some _ => true | None => false end.
Proof. unfold re_test. rewrite re_search_bol. destruct (match_at r None s) as [[[g a] caps]|]; reflexivity. Qed.

(** ** Character-class patterns *)

Lemma match_at_chr cs prev s :
  match_at (RChr cs) prev s =
  match s with
  | c :: s' => if cmatch cs c then Some ([c], s', []) else None
  | [] => None
  end.
Proof.
  rewrite match_at_results. destruct s as [|c s]; cbn; [reflexivity|]. destruct (cmatch cs c); [|reflexivity].
  cbn. replace (match length s with 0 => S (length s) | S l => length s - l end) with 1 by (destruct (length s); lia).
  reflexivity.
Qed.

(** greedy [cs*], [cs+] at a position *)
Definition span (f : N -> bool) (s : str) : str * str := (take_while f s, drop_while f s).
Lemma take_drop_while {A} (f : A -> bool) s : take_while f s ++ drop_while f s = s.
Proof. induction s as [|c s IH]; cbn; [reflexivity|]. destruct (f c); cbn; congruence. Qed.
Lemma take_while_all {A} (f : A -> bool) s : forallb f (take_while f s) = true.
Proof. induction s as [|c s IH]; cbn; [reflexivity|]. destruct (f c) eqn:E; cbn; [rewrite E; exact IH|reflexivity]. Qed.
Lemma drop_while_head {A} (f : A -> bool) s c s' : drop_while f s = c :: s' -> f c = false.
Proof.
  induction s as [|d s IH]; cbn; [discriminate|]. destruct (f d) eqn:E; [exact IH|].
  intros H. injection H as -> ->. exact E.
Qed.

(** All results of [cs*] with at least [room >= length] iterations: the suffixes reached after
    1, 2, ... matching characters, longest first, then the state itself. *)
Fixpoint star_res (f : N -> bool) (prev : option N) (s : str) (caps : list (nat * str)) : list mst :=
  match s with
  | c :: s' => (if f c then star_res f (Some c) s' caps else []) ++ [MS prev s caps]
  | [] => [MS prev [] caps]
  end.
Lemma upto_res_chr cs : forall s n prev caps, length s <= n ->
  upto_res (results (RChr cs)) true n (MS prev s caps) = star_res (cmatch cs) prev s caps.
Proof.
  induction s as [|c s IH]; intros n prev caps Hn.
  - destruct n; reflexivity.
  - destruct n as [|n]; cbn in Hn; [lia|].
    cbn [upto_res star_res]. cbn [results ms_rest ms_caps].
    destruct (cmatch cs c); cbn [flat_map app]; [|reflexivity].
    replace (shorter _ _) with true by (symmetry; apply Nat.ltb_lt; cbn; lia).
    rewrite app_nil_r, IH by lia. reflexivity.
Qed.
Lemma star_res_hd f : forall s prev caps,
  hd_error (star_res f prev s caps) =
  Some (MS (prev_of prev (take_while f s)) (drop_while f s) caps).
Proof.
  induction s as [|c s IH]; intros prev caps; cbn; [reflexivity|].
  destruct (f c); cbn; [|reflexivity].
  specialize (IH (Some c) caps).
  destruct (star_res f (Some c) s caps) as [|x l]; [discriminate IH|]. cbn in *. rewrite IH.
  change (c :: take_while f s) with ([c] ++ take_while f s). rewrite prev_of_app. reflexivity.
Qed.
Lemma star_res_nonempty f prev s caps : exists x l, star_res f prev s caps = x :: l.
Proof.
  destruct (star_res f prev s caps) eqn:E; [|eauto].
  pose proof (star_res_hd f s prev caps) as H. rewrite E in H. discriminate.
Qed.

Definition greedy_star (cs : cset) := RRep true 0 None (RChr cs).
Definition greedy_plus (cs : cset) := RRep true 1 None (RChr cs).
Lemma results_star cs prev s caps :
  results (RRep true 0 None (RChr cs)) (MS prev s caps) = star_res (cmatch cs) prev s caps.
Proof. cbn -[upto_res]. rewrite app_nil_r. apply upto_res_chr. cbn. lia. Qed.
Lemma results_plus cs prev s caps :
  results (RRep true 1 None (RChr cs)) (MS prev s caps) =
  match s with
  | c :: s' => if cmatch cs c then star_res (cmatch cs) (Some c) s' caps else []
  | [] => []
  end.
Proof.
  cbn -[upto_res]. destruct s as [|c s]; [reflexivity|]. destruct (cmatch cs c); [|reflexivity].
  cbn -[upto_res]. rewrite app_nil_r. apply upto_res_chr. cbn. lia.
Qed.

Lemma match_at_plus cs prev s :
  match_at (RRep true 1 None (RChr cs)) prev s =
  match s with
  | c :: _ => if cmatch cs c
              then Some (take_while (cmatch cs) s, drop_while (cmatch cs) s, []) else None
  | [] => None
  end.
Proof.
  rewrite match_at_results, results_plus. destruct s as [|c s]; [reflexivity|].
  destruct (cmatch cs c) eqn:E; [|reflexivity].
  pose proof (star_res_hd (cmatch cs) s (Some c) []) as H.
  destruct (star_res _ _ _ _) as [|x l]; [discriminate|]. injection H as ->. cbn [ms_rest ms_caps].
  assert (Hs : c :: s = take_while (cmatch cs) (c :: s) ++ drop_while (cmatch cs) s).
  { cbn. rewrite E. cbn. rewrite take_drop_while. reflexivity. }
  assert (Hd : drop_while (cmatch cs) (c :: s) = drop_while (cmatch cs) s) by (cbn; rewrite E; reflexivity).
  rewrite Hd. rewrite Hs at 1 2. rewrite firstn_sub. reflexivity.
Qed.
