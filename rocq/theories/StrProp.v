(** * Which characters can occur in the results of the string functions *)
From Verif Require Import Base Regex Entities Common NormRef RegexFacts StrFacts Spec CommonFacts LabelFacts.
From Coq Require Import ZifyBool ZifyNat ZifyN.

Definition infix (a s : str) : Prop := exists p q, s = p ++ a ++ q.
Lemma infix_refl s : infix s s.
Proof. exists [], []. rewrite app_nil_r. reflexivity. Qed.
Lemma infix_trans a b c : infix a b -> infix b c -> infix a c.
Proof. intros (p & q & ->) (p' & q' & ->). exists (p' ++ p), (q ++ q'). rewrite <- !app_assoc. reflexivity. Qed.
Lemma infix_firstn n s : infix (firstn n s) s.
Proof. exists [], (skipn n s). cbn. symmetry. apply firstn_skipn. Qed.
Lemma infix_skipn n s : infix (skipn n s) s.
Proof. exists (firstn n s), []. rewrite app_nil_r. symmetry. apply firstn_skipn. Qed.
Lemma infix_In a s c : infix a s -> In c a -> In c s.
Proof. intros (p & q & ->) H. apply in_or_app. right. apply in_or_app. left. exact H. Qed.
Lemma infix_Forall (Q : N -> Prop) a s : infix a s -> Forall Q s -> Forall Q a.
Proof. intros (p & q & ->) H. apply Forall_app in H as [_ H]. apply Forall_app in H as [H _]. exact H. Qed.
Lemma infix_app_l a b : infix a (a ++ b).
Proof. exists [], b. reflexivity. Qed.
Lemma infix_app_r a b : infix b (a ++ b).
Proof. exists a, []. rewrite app_nil_r. reflexivity. Qed.
Lemma infix_nil s : infix [] s.
Proof. exists [], s. reflexivity. Qed.
Lemma infix_tl s : infix (tl s) s.
Proof. destruct s as [|c s]; [apply infix_nil|]. apply (infix_app_r [c]). Qed.
Lemma infix_removelast s : infix (removelast s) s.
Proof.
  destruct s as [|c s]; [apply infix_nil|]. exists [], [last (c :: s) c]. cbn [app].
  apply app_removelast_last. discriminate.
Qed.
Lemma infix_chop_ends s : infix (chop_ends s) s.
Proof. unfold chop_ends. eapply infix_trans; [apply infix_removelast|apply infix_tl]. Qed.
Lemma infix_drop_while f s : infix (drop_while f s) s.
Proof. destruct (drop_while_suffix f s) as [p Hp]. exists p, []. rewrite app_nil_r. exact Hp. Qed.
Lemma infix_rev a s : infix a s -> infix (rev a) (rev s).
Proof. intros (p & q & ->). exists (rev q), (rev p). rewrite !rev_app_distr, app_assoc. reflexivity. Qed.
Lemma infix_strip_right f s : infix (strip_right f s) s.
Proof. unfold strip_right. rewrite <- (rev_involutive s) at 2. apply infix_rev, infix_drop_while. Qed.
Lemma infix_strip s : infix (strip s) s.
Proof. unfold strip, strip_left. eapply infix_trans; [apply infix_strip_right|apply infix_drop_while]. Qed.

(** Captured groups are parts of the subject *)
Section Caps.
  Variable P : str -> Prop.
  Definition caps_ok (st : mst) : Prop := Forall (fun p => P (snd p)) (ms_caps st).
  Hypothesis Pinfix : forall a s, P s -> infix a s -> P a.
  Lemma eats_infix g st st' : eats g st st' -> infix (ms_rest st') (ms_rest st).
  Proof. intros [-> _]. apply infix_app_r. Qed.
  Lemma times_caps body :
    (forall st st', P (ms_rest st) -> caps_ok st -> In st' (body st) -> caps_ok st' /\ P (ms_rest st')) ->
    forall n st st', P (ms_rest st) -> caps_ok st -> In st' (times_res body n st) -> caps_ok st' /\ P (ms_rest st').
  Proof.
    intros H. induction n as [|n IH]; cbn; intros st st' H1 H2 Hin.
    - destruct Hin as [->|[]]. auto.
    - apply in_flat_map in Hin as (x & Hx & Hin). destruct (H _ _ H1 H2 Hx). eapply IH; eauto.
  Qed.
  Lemma upto_caps body g :
    (forall st st', P (ms_rest st) -> caps_ok st -> In st' (body st) -> caps_ok st' /\ P (ms_rest st')) ->
    forall n st st', P (ms_rest st) -> caps_ok st -> In st' (upto_res body g n st) -> caps_ok st' /\ P (ms_rest st').
  Proof.
    intros H. induction n as [|n IH]; cbn; intros st st' H1 H2 Hin.
    - destruct Hin as [->|[]]. auto.
    - assert (Hin' : st = st' \/ In st' (flat_map
                (fun st' => if shorter st' st then upto_res body g n st' else []) (body st))).
      { destruct g.
        - apply in_app_or in Hin as [Hin|[->|[]]]; [right|left]; auto.
        - destruct Hin as [->|Hin]; [left|right]; auto. }
      destruct Hin' as [->|Hin']; [auto|].
      apply in_flat_map in Hin' as (x & Hx & Hin'). destruct (shorter x st); [|destruct Hin'].
      destruct (H _ _ H1 H2 Hx). eapply IH; eauto.
  Qed.
  Lemma results_caps r : forall st st', P (ms_rest st) -> caps_ok st -> In st' (results r st) -> caps_ok st' /\ P (ms_rest st').
  Proof.
    induction r as [|cs|a IHa b IHb|a IHa b IHb|g mn mx a IHa|n a IHa| | | |neg a IHa]; intros st st' H1 H2 Hin; cbn in Hin.
    - destruct Hin as [->|[]]. auto.
    - destruct (ms_rest st) as [|c s] eqn:E; [destruct Hin|]. destruct (cmatch cs c); [|destruct Hin].
      destruct Hin as [<-|[]]. split; [exact H2|]. cbn. eapply Pinfix; [exact H1|]. apply (infix_app_r [c]).
    - apply in_flat_map in Hin as (x & Hx & Hin). destruct (IHa _ _ H1 H2 Hx). eauto.
    - apply in_app_or in Hin as [H|H]; eauto.
    - apply in_flat_map in Hin as (x & Hx & Hin).
      destruct (times_caps _ IHa _ _ _ H1 H2 Hx) as [Hc Hp].
      eapply (upto_caps _ g IHa); eauto.
    - apply in_map_iff in Hin as (x & <- & Hx). destruct (IHa _ _ H1 H2 Hx) as [Hc Hp]. split; [|exact Hp].
      constructor; [|exact Hc]. cbn. eapply Pinfix; [exact H1|]. apply infix_firstn.
    - destruct (ms_prev st); [destruct Hin|]. destruct Hin as [->|[]]. auto.
    - destruct (ms_prev st) as [c|]; [destruct (N.eqb c LF)|]; try destruct Hin as [->|[]]; try destruct Hin; auto.
    - destruct (ms_rest st) as [|c [|d s]] eqn:E; [| |destruct Hin].
      + destruct Hin as [->|[]]. rewrite E. auto.
      + destruct (N.eqb c LF); [|destruct Hin]. destruct Hin as [->|[]]. rewrite E. auto.
    - destruct (results a st), neg; try destruct Hin as [->|[]]; try destruct Hin; auto.
  Qed.
  Lemma match_at_caps r prev s g a caps : P s -> match_at r prev s = Some (g, a, caps) ->
    Forall (fun p => P (snd p)) caps /\ P g /\ P a.
  Proof.
    intros Hs H. apply match_at_spec in H as (E & st & Hst & Ha & Hc & _).
    assert (Hin : In st (results r (MS prev s []))) by (destruct (results r _); [discriminate|]; injection Hst as ->; left; reflexivity).
    destruct (results_caps r (MS prev s []) st Hs (Forall_nil _) Hin) as [H1 H2].
    unfold caps_ok in H1. rewrite Hc in H1. rewrite Ha in H2. split; [exact H1|]. split; [|exact H2].
    eapply Pinfix; [exact Hs|]. rewrite E. apply infix_app_l.
  Qed.
End Caps.

(** ** Characters in the result of a substitution *)
Section SubChars.
  Variable Q : N -> Prop.
  Lemma FQ_infix : forall a s, Forall Q s -> infix a s -> Forall Q a.
  Proof. intros a s H1 H2. eapply infix_Forall; eauto. Qed.
  Lemma sub_chars r f :
    (forall m, Forall Q (rm_group m) -> Forall (fun p => Forall Q (snd p)) (rm_caps m) -> Forall Q (f m)) ->
    forall n prev s, Forall Q s -> Forall Q (sub_loop n r f prev s).
  Proof.
    intros Hf. induction n as [|n IH]; intros prev s Hs; [constructor|]. rewrite sub_loop_S.
    destruct (match_at r prev s) as [[[g a] caps]|] eqn:E.
    - destruct (match_at_caps _ FQ_infix _ _ _ _ _ _ Hs E) as (H1 & H2 & H3).
      apply Forall_app. split; [apply Hf; assumption|]. destruct (is_nil g); [|apply IH, H3].
      destruct s as [|c s]; [constructor|]. inversion Hs; subst. constructor; auto.
    - destruct s as [|c s]; [constructor|]. inversion Hs; subst. constructor; auto.
  Qed.
  Lemma re_sub_chars r f s :
    (forall m, Forall Q (rm_group m) -> Forall (fun p => Forall Q (snd p)) (rm_caps m) -> Forall Q (f m)) ->
    Forall Q s -> Forall Q (re_sub r f s).
  Proof. intros H Hs. apply sub_chars; assumption. Qed.

  (** The characters the library itself introduces *)
  Definition plain_char (c : N) : Prop := (0 < c /\ c <= 1114111 /\ ~ (55296 <= c <= 57343))%N.
  Hypothesis HQ : forall c, plain_char c -> Q c.

  Lemma number_text_chars n : Forall Q (number_text n).
  Proof.
    unfold number_text.
    destruct ((n =? 0)%N || (1114111 <? n)%N || in_range 55296 57343 n) eqn:E.
    - constructor; [apply HQ; unfold plain_char; lia|constructor].
    - destruct (in_range 128 159 n) eqn:E1.
      + constructor; [|constructor]. apply HQ.
        assert (G : forallb (fun c => (0 <? c)%N && (c <? 10000)%N) windows_1252 = true) by reflexivity.
        rewrite forallb_forall in G. specialize (G (nth (N.to_nat (n - 128)) windows_1252 0%N)).
        assert (X : (0 <? nth (N.to_nat (n - 128)) windows_1252 0)%N && (nth (N.to_nat (n - 128)) windows_1252 0 <? 10000)%N = true).
        { apply G. apply nth_In. unfold in_range in E1. change (length windows_1252) with 32. lia. }
        unfold plain_char. lia.
      + destruct (dropped_number n); [constructor|]. constructor; [|constructor]. apply HQ. unfold plain_char, in_range in *. lia.
  Qed.
  Definition table_plain (tbl : list (str * str)) : bool :=
    forallb (fun p => forallb (fun c => (0 <? c)%N && (c <=? 1114111)%N && negb (in_range 55296 57343 c)) (snd p)) tbl.
  Lemma table_chars tbl k v : table_plain tbl = true -> assoc_str k tbl = Some v -> Forall Q v.
  Proof.
    intros H Hk. apply assoc_str_key in Hk. unfold table_plain in H. rewrite forallb_forall in H. apply H in Hk. cbn [snd] in Hk.
    rewrite forallb_forall in Hk. apply Forall_forall. intros c Hc. apply Hk in Hc. apply HQ. unfold plain_char, in_range in *. lia.
  Qed.
  Lemma named_prefix_chars tbl s v : table_plain tbl = true -> Forall Q s -> forall n, named_prefix tbl s n = Some v -> Forall Q v.
  Proof.
    intros Ht Hs. induction n as [|n IH]; cbn [named_prefix]; [discriminate|].
    destruct (Nat.leb (S n) 1); [discriminate|]. destruct (assoc_str (firstn (S n) s) tbl) as [w|] eqn:E; [|exact IH].
    intros H. apply Some_inj in H as <-. apply Forall_app. split; [eapply table_chars; eauto|]. eapply FQ_infix; [exact Hs|apply infix_skipn].
  Qed.
  Lemma replace_charref_chars tbl s : table_plain tbl = true -> Forall Q s -> Forall Q (replace_charref tbl s).
  Proof.
    intros Ht Hs.
    assert (Hd : hd_error s = Some 35%N \/ hd_error s <> Some 35%N).
    { destruct s as [|c s]; [right; discriminate|]. destruct (N.eq_dec c 35); [subst; left; reflexivity|right; cbn; congruence]. }
    destruct Hd as [Hd|Hd].
    - destruct s as [|c s]; [discriminate|]. injection Hd as ->. cbn [replace_charref].
      destruct s as [|c s]; [|destruct (N.eqb c 120 || N.eqb c 88)]; rewrite charref_num_text; apply number_text_chars.
    - rewrite replace_named by exact Hd. destruct (assoc_str s tbl) eqn:E; [eapply table_chars; eauto|].
      destruct (named_prefix tbl s (length s - 1)) eqn:E1; [eapply named_prefix_chars; eauto|].
      constructor; [apply HQ; unfold plain_char; lia|exact Hs].
  Qed.
  Lemma unescape_with_chars tbl s : table_plain tbl = true -> Forall Q s -> Forall Q (unescape_with tbl s).
  Proof.
    intros Ht Hs. unfold unescape_with. destruct (mem_str 38 s); [|exact Hs].
    apply re_sub_chars; [|exact Hs]. intros m Hg Hc. destruct (rm_cap m 1) as [g|] eqn:E; [|exact Hg].
    apply replace_charref_chars; [exact Ht|]. unfold rm_cap in E. destruct (find _ (rm_caps m)) as [p|] eqn:Ef; [|discriminate].
    injection E as <-. apply find_some in Ef as [Ef _]. rewrite Forall_forall in Hc. apply (Hc p Ef).
  Qed.
  Lemma html5_plain : table_plain html5_stdlib = true.
  Proof. vm_compute. reflexivity. Qed.
  Lemma html_unescape_chars s : Forall Q s -> Forall Q (html_unescape s).
  Proof. apply unescape_with_chars, html5_plain. Qed.
  Lemma unescape_char_chars s : Forall Q s -> Forall Q (unescape_char s).
  Proof.
    intros H.
    assert (E : unescape_char s = html_unescape s \/ exists a c r, s = a :: c :: r /\ unescape_char s = [c]).
    { unfold unescape_char. destruct s as [|a s]; [left; reflexivity|]. destruct s as [|c s].
      - left. destruct a as [|p]; [reflexivity|]. do 7 (destruct p as [p|p|]; try reflexivity).
      - destruct (N.eq_dec a 92) as [->|Ha]; [right; eauto|]. left.
        destruct a as [|p]; [reflexivity|]. do 7 (destruct p as [p|p|]; try reflexivity). congruence. }
    destruct E as [->|(a & c & r & -> & ->)]; [apply html_unescape_chars, H|].
    inversion H as [|? ? ? H2]; subst. inversion H2; subst. repeat constructor. assumption.
  Qed.
  Lemma unescape_string_chars s : Forall Q s -> Forall Q (unescape_string s).
  Proof.
    intros H. unfold unescape_string. destruct (re_test _ s); [|exact H]. apply re_sub_chars; [|exact H].
    intros m Hm _. apply unescape_char_chars, Hm.
  Qed.
  Lemma uri_chars_plain v : forallb uri_char v = true -> Forall Q v.
  Proof.
    intros H. rewrite forallb_forall in H. apply Forall_forall. intros c Hc. apply H in Hc. rewrite <- uri_safe_char in Hc.
    pose proof (uri_safe_ascii _ Hc). apply HQ. unfold plain_char. assert (c <> 0%N) by (intros ->; discriminate). lia.
  Qed.
End SubChars.

(** A reference that is not numeric never decodes to nothing *)
Lemma named_nonempty_table :
  forallb (fun p => negb (is_nil (snd p))) html5_stdlib = true.
Proof. vm_compute. reflexivity. Qed.
Lemma assoc_nonempty k v : assoc_str k html5_stdlib = Some v -> v <> [].
Proof.
  intros H. apply assoc_str_key in H. pose proof named_nonempty_table as G. rewrite forallb_forall in G. apply G in H.
  cbn in H. destruct v; [discriminate|congruence].
Qed.
Lemma named_prefix_nonempty s v : forall n, named_prefix html5_stdlib s n = Some v -> v <> [].
Proof.
  induction n as [|n IH]; cbn [named_prefix]; [discriminate|].
  destruct (Nat.leb (S n) 1); [discriminate|]. destruct (assoc_str (firstn (S n) s) html5_stdlib) as [w|] eqn:E; [|exact IH].
  intros H. apply Some_inj in H as <-. apply assoc_nonempty in E. destruct w; [congruence|discriminate].
Qed.
Lemma unescape_nonempty s : hd_error s <> Some 35%N -> html_unescape (38%N :: s) <> [].
Proof.
  intros Hs. unfold html_unescape, unescape_with. cbn [mem_str existsb N.eqb Pos.eqb orb]. unfold re_sub. rewrite sub_loop_S.
  destruct (match_at charref_re None (38%N :: s)) as [[[g a] caps]|] eqn:E; [|discriminate].
  pose proof (match_at_spec _ _ _ _ _ _ E) as (Es & st & Hst & Ha & Hc & He).
  rewrite charref_re_eq, seq_chr in Hst by apply cs1_refl. cbn [results] in Hst.
  destruct (results charref_body _) as [|st0 l] eqn:Er; [discriminate|]. cbn [map hd_error] in Hst. apply Some_inj in Hst. subst st.
  cbn [ms_rest ms_caps] in *. rewrite <- Hc. cbn [rm_cap rm_caps find fst Nat.eqb snd].
  destruct (results_eats charref_body (MS (Some 38%N) s []) st0) as [g' [Eg _]]; [rewrite Er; left; reflexivity|].
  cbn [ms_rest] in Eg. rewrite Eg, firstn_sub.
  assert (Hne : replace_charref html5_stdlib g' <> []).
  { rewrite replace_named.
    - destruct (assoc_str g' html5_stdlib) eqn:E1; [eapply assoc_nonempty, E1|].
      destruct (named_prefix _ _ _) eqn:E2; [eapply named_prefix_nonempty, E2|discriminate].
    - rewrite Eg in Hs. destruct g' as [|c g']; [discriminate|exact Hs]. }
  intros X. apply app_eq_nil in X as [X _]. contradiction.
Qed.
