(** * Facts about common.py and entitytrans.py *)
From Verif Require Import Base Regex Entities Common RegexFacts StrFacts Spec.
From Coq Require Import ZifyBool ZifyNat ZifyN.
Local Ltac Zify.zify_post_hook ::= Z.div_mod_to_equations.

(** ** Finite checks over all numbers below a bound *)
Fixpoint below (n : nat) (f : N -> bool) : bool :=
  match n with O => true | S m => f (N.of_nat m) && below m f end.
Lemma below_spec n f : below n f = true -> forall c, (c < N.of_nat n)%N -> f c = true.
Proof.
  induction n as [|n IH]; cbn [below]; intros H c Hc; [lia|].
  apply andb_prop in H as [H1 H2].
  destruct (N.eq_dec c (N.of_nat n)) as [->|Hne]; [exact H1|]. apply IH; auto. lia.
Qed.

Lemma existsb_range_false (f : N -> bool) l : (forall x, In x l -> f x = false) -> existsb f l = false.
Proof.
  induction l as [|x l IH]; intros H; cbn; [reflexivity|].
  rewrite (H x), IH; auto; [intros y Hy; apply H|]; cbn; auto.
Qed.

(** ** ASCII classes under IGNORECASE *)
Definition special_fold (c : N) : bool := N.eqb c 304 || N.eqb c 305 || N.eqb c 383 || N.eqb c 8490.
Lemma fold_above c : (128 <= c)%N -> special_fold c = false -> fold_icase c = c.
Proof. unfold special_fold, fold_icase, in_range. intros H1 H2. 
  destruct ((65 <=? c)%N && (c <=? 90)%N) eqn:E; [lia|].
  destruct (N.eqb c 304 || N.eqb c 305) eqn:E1; [lia|].
  destruct (N.eqb c 383) eqn:E2; [lia|]. destruct (N.eqb c 8490) eqn:E3; lia.
Qed.
(** items that are ranges below 128 *)
Definition ascii_item (i : citem) : bool :=
  match i with CRange lo hi => N.ltb hi 128 | _ => false end.
Lemma ascii_items_above ic l c : forallb ascii_item l = true -> (128 <= c)%N -> special_fold c = false ->
  existsb (item_match ic c) l = false.
Proof.
  intros Hl Hc Hs. induction l as [|i l IH]; cbn [existsb forallb] in *; [reflexivity|].
  apply andb_prop in Hl as [Hi Hl]. rewrite (IH Hl). destruct i as [lo hi| | |]; try discriminate. cbn [ascii_item] in Hi.
  cbn [item_match]. rewrite (fold_above c Hc Hs). unfold in_range. destruct ic; lia.
Qed.
(** A class of ASCII ranges equals a predicate if it does below 128 and on the four letters *)
Lemma cmatch_ascii ic l f :
  forallb ascii_item l = true ->
  below 128 (fun c => Bool.eqb (cmatch (CS false ic l) c) (f c)) = true ->
  forallb (fun c => Bool.eqb (cmatch (CS false ic l) c) (f c)) [304; 305; 383; 8490]%N = true ->
  (forall c, (128 <= c)%N -> special_fold c = false -> f c = false) ->
  forall c, cmatch (CS false ic l) c = f c.
Proof.
  intros Hl Hb Hs Hf c.
  destruct (N.ltb c 128) eqn:E.
  - apply eqb_prop. eapply (below_spec 128 _ Hb). lia.
  - destruct (special_fold c) eqn:Es.
    + rewrite forallb_forall in Hs. apply eqb_prop, Hs. unfold special_fold in Es. cbn [In]. lia.
    + rewrite Hf by (auto; lia). unfold cmatch. cbn [cs_neg cs_icase cs_items].
      rewrite ascii_items_above; auto; lia.
Qed.

(** ** Heads of [flat_map] *)
Lemma hd_flat_map {A B} (f : A -> list B) l x y :
  hd_error l = Some x -> hd_error (f x) = Some y -> hd_error (flat_map f l) = Some y.
Proof. destruct l as [|z l]; [discriminate|]. intros H1 H2. injection H1 as ->. cbn. destruct (f x); [discriminate|]. exact H2. Qed.

Lemma match_at_hd r prev s st :
  hd_error (results r (MS prev s [])) = Some st ->
  match_at r prev s = Some (firstn (length s - length (ms_rest st)) s, ms_rest st, ms_caps st).
Proof. rewrite match_at_results. destruct (results _ _); [discriminate|]. intros H. injection H as ->. reflexivity. Qed.

(** ** unescape_string (C46) *)
Definition escapable_cs : cset :=
  CS false true (ltac:(let v := eval vm_compute in
    (match reEntityOrEscapedChar with RAlt (RSeq _ (RChr cs)) _ => cs_items cs | _ => [] end) in exact v)).
Lemma escapable_punct c : cmatch escapable_cs c = ascii_punct c.
Proof.
  apply cmatch_ascii; try (vm_compute; reflexivity).
  intros x Hx _. unfold ascii_punct, in_range. lia.
Qed.

Lemma icase_nonletter x c : (x < 65)%N \/ (90 < x < 97)%N \/ (122 < x < 128)%N ->
  cmatch (CS false true [CRange x x]) c = N.eqb c x.
Proof.
  intros Hx. cm_unfold. unfold fold_icase, in_range.
  destruct ((65 <=? c)%N && (c <=? 90)%N) eqn:E; [lia|].
  destruct (N.eqb c 304 || N.eqb c 305) eqn:E1; [lia|].
  destruct (N.eqb c 383) eqn:E2; [lia|]. destruct (N.eqb c 8490) eqn:E3; lia.
Qed.
Lemma case_single x c : cmatch (CS false false [CRange x x]) c = N.eqb c x.
Proof. cm_unfold. lia. Qed.

Definition entity_re : regex :=
  ltac:(let v := eval vm_compute in
    (match reEntityOrEscapedChar with RAlt _ (RSeq _ r) => r | r => r end) in exact v).
Lemma reEntityOrEscapedChar_eq :
  reEntityOrEscapedChar =
  RAlt (RSeq (RChr (CS false true [CRange 92 92])) (RChr escapable_cs))
       (RSeq (RChr (CS false true [CRange 38 38])) entity_re).
Proof. reflexivity. Qed.

Lemma escaped_match_punct prev c s : ascii_punct c = true ->
  match_at reEntityOrEscapedChar prev (92%N :: c :: s) = Some ([92%N; c], s, []).
Proof.
  intros Hc. rewrite (match_at_hd _ _ _ (MS (Some c) s [])).
  - cbn [ms_rest ms_caps]. change (92%N :: c :: s) with ([92%N; c] ++ s) at 1 2. rewrite firstn_sub. reflexivity.
  - rewrite reEntityOrEscapedChar_eq. cbn [results ms_rest]. rewrite icase_nonletter by lia. cbn [N.eqb Pos.eqb flat_map].
    cbn [ms_rest ms_caps]. rewrite escapable_punct, Hc. reflexivity.
Qed.
Lemma escaped_match_other prev c s : c <> 92%N -> c <> 38%N ->
  match_at reEntityOrEscapedChar prev (c :: s) = None.
Proof.
  intros H1 H2. apply match_at_none. rewrite reEntityOrEscapedChar_eq. cbn [results ms_rest].
  rewrite !icase_nonletter by lia. apply N.eqb_neq in H1, H2. rewrite H1, H2. reflexivity.
Qed.

Lemma sub_escape s : forall n prev, length (backslash_escape s) < n ->
  sub_loop n reEntityOrEscapedChar (fun m => unescape_char (rm_group m)) prev (backslash_escape s) = s.
Proof.
  induction s as [|c s IH]; intros n prev Hn; (destruct n as [|n]; [cbn in Hn; lia|]).
  - cbn [backslash_escape flat_map sub_loop]. replace (match_at reEntityOrEscapedChar prev []) with (@None (str * str * list (nat * str))); [reflexivity|].
    symmetry. apply match_at_none. rewrite reEntityOrEscapedChar_eq. reflexivity.
  - unfold backslash_escape in *. cbn [flat_map] in *.
    destruct (ascii_punct c) eqn:Ec; cbn [app length] in *; cbn [sub_loop].
    + rewrite escaped_match_punct by exact Ec. cbn [rm_group unescape_char is_nil app]. rewrite IH by lia. reflexivity.
    + rewrite escaped_match_other.
      * rewrite IH by lia. reflexivity.
      * intros ->. discriminate.
      * intros ->. discriminate.
Qed.

Lemma backslash_or_amp s : re_test reBackslashOrAmp s = existsb (fun c => N.eqb c 92 || N.eqb c 38) s.
Proof.
  unfold reBackslashOrAmp. rewrite re_test_chr.
  induction s as [|c s IH]; [reflexivity|]. cbn [existsb]. rewrite IH. f_equal. cm_unfold. lia.
Qed.
Lemma unescape_string_plain s : ~ In 92%N s -> ~ In 38%N s -> unescape_string s = s.
Proof.
  intros H1 H2. unfold unescape_string. rewrite backslash_or_amp, existsb_range_false; [reflexivity|].
  intros x Hx. destruct (N.eqb x 92) eqn:E1; [apply N.eqb_eq in E1; subst; contradiction|].
  destruct (N.eqb x 38) eqn:E2; [apply N.eqb_eq in E2; subst; contradiction|]. reflexivity.
Qed.
Lemma unescape_escape s : unescape_string (backslash_escape s) = s.
Proof.
  unfold unescape_string. destruct (re_test reBackslashOrAmp (backslash_escape s)) eqn:E.
  - apply sub_escape. lia.
  - rewrite backslash_or_amp in E. unfold backslash_escape. apply flat_map_id. intros c Hc.
    destruct (ascii_punct c) eqn:Ec; [|reflexivity]. exfalso.
    assert (X : existsb (fun c => N.eqb c 92 || N.eqb c 38) (backslash_escape s) = true); [|congruence].
    apply existsb_exists. exists 92%N. split; [|reflexivity]. unfold backslash_escape.
    apply in_flat_map. exists c. split; [exact Hc|]. rewrite Ec. left. reflexivity.
Qed.

(** ** normalize_uri (C23) *)
Lemma uri_safe_char c : uri_safe c = uri_char c.
Proof.
  unfold uri_safe, uri_char, is_alnum, ascii_alnum.
  rewrite <- orb_assoc. f_equal. unfold mem_str. rewrite <- existsb_app. reflexivity.
Qed.
Lemma uri_safe_ascii c : uri_safe c = true -> (c < 128)%N.
Proof.
  unfold uri_safe, is_alnum, in_range, mem_str. cbn [u existsb]. lia.
Qed.

Lemma in_bind {A B} (x : res A) (f : A -> res B) b : bind x f = Ok b -> exists a, x = Ok a /\ f a = Ok b.
Proof. destruct x; cbn; [eauto|discriminate]. Qed.

Lemma utf8_char_byte c l : code_point c -> utf8_char c = Ok l -> forall b, In b l -> (b < 256)%N.
Proof.
  unfold code_point, utf8_char. intros Hc H b Hb.
  destruct (N.ltb c 128) eqn:E1; [apply Ok_inj in H as <-; cbn [In] in Hb; lia|].
  destruct (N.ltb c 2048) eqn:E2.
  { apply Ok_inj in H as <-. cbn [In] in Hb. lia. }
  destruct (in_range 55296 57343 c) eqn:E3; [discriminate|].
  destruct (N.ltb c 65536) eqn:E4.
  { apply Ok_inj in H as <-. cbn [In] in Hb. lia. }
  apply Ok_inj in H as <-.
  cbn [In] in Hb. lia.
Qed.
Lemma utf8_encode_bytes : forall s l, Forall code_point s -> utf8_encode s = Ok l -> Forall (fun b => (b < 256)%N) l.
Proof.
  induction s as [|c s IH]; intros l Hs H; cbn in H.
  - apply Ok_inj in H as <-. constructor.
  - apply in_bind in H as (b & Hb & H). apply in_bind in H as (r & Hr & H). apply Ok_inj in H as <-.
    inversion Hs; subst. apply Forall_app. split; [|eapply IH; eauto].
    apply Forall_forall. intros x Hx. eapply utf8_char_byte; eauto.
Qed.

Lemma hex_digit_safe d : (d < 16)%N -> uri_safe (hex_digit d) = true.
Proof.
  intros H. assert (G : below 16 (fun d => uri_safe (hex_digit d)) = true) by (vm_compute; reflexivity).
  exact (below_spec _ _ G d H).
Qed.
Lemma quote_byte_safe b : (b < 256)%N -> forallb uri_safe (quote_byte b) = true.
Proof.
  intros H. unfold quote_byte. destruct (uri_safe b) eqn:E; cbn [forallb]; [rewrite E; reflexivity|].
  rewrite !hex_digit_safe; [reflexivity| |].
  - apply N.mod_lt. lia.
  - apply N.div_lt_upper_bound; lia.
Qed.
Lemma normalize_uri_chars s v : Forall code_point s -> normalize_uri s = Ok v -> forallb uri_safe v = true.
Proof.
  intros Hs H. unfold normalize_uri in H. apply in_bind in H as (b & Hb & H). apply Ok_inj in H as <-.
  pose proof (utf8_encode_bytes _ _ Hs Hb) as Hby. clear Hb Hs.
  induction b as [|x b IH]; [reflexivity|]. inversion Hby; subst. cbn [flat_map]. rewrite forallb_app, IH by assumption.
  rewrite quote_byte_safe by assumption. reflexivity.
Qed.
Lemma normalize_uri_safe s : forallb uri_safe s = true -> normalize_uri s = Ok s.
Proof.
  intros H. unfold normalize_uri.
  assert (E : utf8_encode s = Ok s).
  { induction s as [|c s IH]; [reflexivity|]. cbn [forallb] in H. apply andb_prop in H as [Hc H].
    cbn [utf8_encode]. unfold utf8_char. apply uri_safe_ascii in Hc. replace (N.ltb c 128) with true by lia.
    cbn [bind]. rewrite IH by exact H. reflexivity. }
  rewrite E. cbn [bind]. f_equal. apply flat_map_id. intros x Hx. rewrite forallb_forall in H.
  unfold quote_byte. rewrite (H x Hx). reflexivity.
Qed.

Lemma utf8_encode_ok s : (exists l, utf8_encode s = Ok l) <-> Forall (fun c => ~ surrogate c) s.
Proof.
  induction s as [|c s IH]; [split; [constructor|exists []; reflexivity]|].
  rewrite Forall_cons_iff, <- IH. cbn [utf8_encode].
  assert (G : (exists l, utf8_char c = Ok l) <-> ~ surrogate c).
  { unfold utf8_char, surrogate. destruct (N.ltb c 128) eqn:E1; [split; [lia|eauto]|].
    destruct (N.ltb c 2048) eqn:E2; [split; [lia|eauto]|].
    unfold in_range. destruct ((55296 <=? c)%N && (c <=? 57343)%N) eqn:E3; [split; [intros [l H]; discriminate|lia]|].
    destruct (N.ltb c 65536); split; eauto; lia. }
  rewrite <- G. split.
  - intros [l H]. apply in_bind in H as (b & Hb & H). apply in_bind in H as (r & Hr & H). eauto.
  - intros [[a Ha] [b Hb]]. rewrite Ha, Hb. cbn. eauto.
Qed.
Lemma utf8_encode_err s e : utf8_encode s = Err e -> e = UnicodeEncodeError.
Proof.
  induction s as [|c s IH]; [discriminate|]. cbn [utf8_encode]. unfold utf8_char.
  destruct (N.ltb c 128); [|destruct (N.ltb c 2048); [|destruct (in_range 55296 57343 c); [cbn; congruence|destruct (N.ltb c 65536)]]];
    cbn [bind]; (destruct (utf8_encode s); cbn [bind]; [discriminate|]; exact IH).
Qed.
Lemma normalize_uri_ok s : (exists l, normalize_uri s = Ok l) <-> Forall (fun c => ~ surrogate c) s.
Proof.
  rewrite <- utf8_encode_ok. unfold normalize_uri. destruct (utf8_encode s); cbn; split; intros [l H]; eauto; discriminate.
Qed.
Lemma normalize_uri_err s e : normalize_uri s = Err e -> e = UnicodeEncodeError.
Proof. unfold normalize_uri. destruct (utf8_encode s) eqn:E; cbn; [discriminate|]. intros H. injection H as <-. eapply utf8_encode_err, E. Qed.

Lemma hex_val_digit d : (d < 16)%N -> hex_val (hex_digit d) = Some d.
Proof.
  intros H. assert (G : below 16 (fun d => match hex_val (hex_digit d) with Some x => N.eqb x d | None => false end) = true) by (vm_compute; reflexivity).
  pose proof (below_spec _ _ G d H) as X. cbn beta in X. destruct (hex_val (hex_digit d)); [|discriminate].
  apply N.eqb_eq in X. congruence.
Qed.
Lemma percent_decode_cons c r : c <> 37%N ->
  percent_decode (c :: r) = match percent_decode r with Some t => Some (c :: t) | None => None end.
Proof.
  intros H. destruct c as [|p]; [reflexivity|].
  do 6 (destruct p as [p|p|]; try reflexivity). congruence.
Qed.
Lemma percent_decode_quote b : Forall (fun x => (x < 256)%N) b -> ~ In 37%N b ->
  percent_decode (flat_map quote_byte b) = Some b.
Proof.
  induction b as [|x b IH]; intros Hb Hn; [reflexivity|]. inversion Hb; subst. cbn [flat_map].
  assert (Hx : x <> 37%N) by (intros ->; apply Hn; left; reflexivity).
  assert (Hi : percent_decode (flat_map quote_byte b) = Some b) by (apply IH; auto; intros H; apply Hn; right; exact H).
  unfold quote_byte at 1. destruct (uri_safe x).
  - cbn [app]. rewrite percent_decode_cons, Hi by exact Hx. reflexivity.
  - cbn [app percent_decode]. rewrite !hex_val_digit, Hi; [|apply N.mod_lt; lia|apply N.div_lt_upper_bound; lia].
    f_equal. f_equal. lia.
Qed.

Lemma utf8_decode_encode : forall s l, Forall code_point s -> utf8_encode s = Ok l -> utf8_decode l = Some s.
Proof.
  induction s as [|c s IH]; intros l Hs H; cbn [utf8_encode] in H.
  - apply Ok_inj in H as <-. reflexivity.
  - apply in_bind in H as (b & Hb & H). apply in_bind in H as (r & Hr & H). apply Ok_inj in H as <-.
    inversion Hs as [|? ? Hc Hs']; subst. specialize (IH _ Hs' Hr). unfold code_point in Hc. unfold utf8_char in Hb.
    destruct (N.ltb c 128) eqn:E1.
    { apply Ok_inj in Hb as <-. cbn [app utf8_decode]. rewrite E1, IH. reflexivity. }
    destruct (N.ltb c 2048) eqn:E2.
    { apply Ok_inj in Hb as <-. cbn [app utf8_decode].

      replace (192 + c / 64 <? 128)%N with false by lia. replace (192 + c / 64 <? 224)%N with true by lia.
      rewrite IH. f_equal. f_equal. lia. }
    destruct (in_range 55296 57343 c) eqn:E3; [discriminate|].
    destruct (N.ltb c 65536) eqn:E4.
    { apply Ok_inj in Hb as <-. cbn [app utf8_decode].


      assert (E : (c / 64 / 64 = c / 4096)%N) by (rewrite N.div_div by lia; reflexivity).
      replace (224 + c / 4096 <? 128)%N with false by lia. replace (224 + c / 4096 <? 224)%N with false by lia.
      replace (224 + c / 4096 <? 240)%N with true by lia.
      rewrite IH. f_equal. f_equal. lia. }
    { apply Ok_inj in Hb as <-. cbn [app utf8_decode].



      assert (E : (c / 64 / 64 = c / 4096)%N) by (rewrite N.div_div by lia; reflexivity).
      assert (E' : (c / 4096 / 64 = c / 262144)%N) by (rewrite N.div_div by lia; reflexivity).
      replace (240 + c / 262144 <? 128)%N with false by lia. replace (240 + c / 262144 <? 224)%N with false by lia.
      replace (240 + c / 262144 <? 240)%N with false by lia.
      rewrite IH. f_equal. f_equal. lia. }
Qed.
Lemma utf8_no_percent : forall s l, ~ In 37%N s -> utf8_encode s = Ok l -> ~ In 37%N l.
Proof.
  induction s as [|c s IH]; intros l Hs H; cbn [utf8_encode] in H.
  - apply Ok_inj in H as <-. auto.
  - apply in_bind in H as (b & Hb & H). apply in_bind in H as (r & Hr & H). apply Ok_inj in H as <-.
    intros Hin. apply in_app_or in Hin as [Hin|Hin]; [|revert Hin; apply (IH r); auto; intros X; apply Hs; right; exact X].
    assert (c <> 37%N) by (intros ->; apply Hs; left; reflexivity). unfold utf8_char in Hb.
    destruct (N.ltb c 128) eqn:E1; [apply Ok_inj in Hb as <-; cbn in Hin; intuition|].
    destruct (N.ltb c 2048); [apply Ok_inj in Hb as <-; cbn [In] in Hin; lia|].
    destruct (in_range _ _ c); [discriminate|].
    destruct (N.ltb c 65536); apply Ok_inj in Hb as <-; cbn [In] in Hin; lia.
Qed.
Lemma normalize_uri_decode s v : Forall code_point s -> ~ In 37%N s -> normalize_uri s = Ok v ->
  exists bytes, percent_decode v = Some bytes /\ utf8_decode bytes = Some s.
Proof.
  intros Hs Hp H. unfold normalize_uri in H. apply in_bind in H as (b & Hb & H). apply Ok_inj in H as <-.
  exists b. split; [|eapply utf8_decode_encode; eauto].
  apply percent_decode_quote; [eapply utf8_encode_bytes; eauto|eapply utf8_no_percent; eauto].
Qed.

(** ** First result of a pattern *)
Lemma hd_seq a b st st1 st2 :
  hd_error (results a st) = Some st1 -> hd_error (results b st1) = Some st2 ->
  hd_error (results (RSeq a b) st) = Some st2.
Proof. intros H1 H2. cbn [results]. eapply hd_flat_map; eassumption. Qed.
Lemma hd_alt_l a b st st1 : hd_error (results a st) = Some st1 -> hd_error (results (RAlt a b) st) = Some st1.
Proof. cbn [results]. destruct (results a st); [discriminate|]. exact (fun H => H). Qed.
Lemma hd_alt_r a b st : results a st = [] -> results (RAlt a b) st = results b st.
Proof. intros H. cbn [results]. rewrite H. reflexivity. Qed.
Lemma hd_chr cs c p s caps : cmatch cs c = true ->
  hd_error (results (RChr cs) (MS p (c :: s) caps)) = Some (MS (Some c) s caps).
Proof. intros H. cbn. rewrite H. reflexivity. Qed.
Lemma chr_fail cs c p s caps : cmatch cs c = false -> results (RChr cs) (MS p (c :: s) caps) = [].
Proof. intros H. cbn. rewrite H. reflexivity. Qed.
Lemma seq_fail a b st : results a st = [] -> results (RSeq a b) st = [].
Proof. intros H. cbn [results]. rewrite H. reflexivity. Qed.
Lemma seq_chr cs b c p s caps : cmatch cs c = true ->
  results (RSeq (RChr cs) b) (MS p (c :: s) caps) = results b (MS (Some c) s caps).
Proof. intros H. cbn [results ms_rest]. rewrite H. cbn [flat_map ms_caps]. apply app_nil_r. Qed.
Lemma hd_opt cs c p s caps : cmatch cs c = true ->
  hd_error (results (RRep true 0 (Some 1) (RChr cs)) (MS p (c :: s) caps)) = Some (MS (Some c) s caps).
Proof.
  intros H. cbn [results times_res flat_map ms_rest]. rewrite app_nil_r.
  replace (Nat.min (1 - 0) (length (c :: s))) with 1 by (cbn; destruct (length s); reflexivity).
  cbn [upto_res]. cbn [results ms_rest]. rewrite H. cbn [flat_map ms_caps].
  replace (shorter _ _) with true by (symmetry; apply Nat.ltb_lt; cbn; lia). reflexivity.
Qed.
Lemma drop_while_app_all {A} (f : A -> bool) s t : forallb f s = true -> drop_while f (s ++ t) = drop_while f t.
Proof. induction s as [|c s IH]; cbn; [reflexivity|]. intros H. apply andb_prop in H as [-> H]. auto. Qed.
Lemma take_while_app_all {A} (f : A -> bool) s t : forallb f s = true -> take_while f (s ++ t) = s ++ take_while f t.
Proof. induction s as [|c s IH]; cbn; [reflexivity|]. intros H. apply andb_prop in H as [-> H]. rewrite IH by exact H. reflexivity. Qed.
Lemma hd_plus cs p s t caps : s <> [] -> forallb (cmatch cs) s = true ->
  match t with c :: _ => cmatch cs c = false | [] => True end ->
  exists q, hd_error (results (RRep true 1 None (RChr cs)) (MS p (s ++ t) caps)) = Some (MS q t caps).
Proof.
  intros Hn Hs Ht. rewrite results_plus. destruct s as [|c s]; [congruence|]. cbn [app forallb] in *.
  apply andb_prop in Hs as [Hc Hs]. rewrite Hc, star_res_hd, drop_while_app_all by exact Hs.
  assert (E : drop_while (cmatch cs) t = t) by (destruct t as [|d t]; cbn; [reflexivity|rewrite Ht; reflexivity]).
  rewrite E. eauto.
Qed.

(** ** Numeric character references (C21) *)
Lemma number_of_fold base : forall s acc n, number_of hex_digit_val base acc s = Some n ->
  fold_left (fun acc c => acc * base + match hex_value c with Some d => d | None => 0 end)%N s acc = n.
Proof.
  induction s as [|c s IH]; intros acc n H; cbn [number_of fold_left] in *; [congruence|].
  change (hex_value c) with (hex_digit_val c). destruct (hex_digit_val c); [|discriminate]. auto.
Qed.
Lemma number_of_dec_hex base : forall s acc n, number_of dec_digit base acc s = Some n ->
  number_of hex_digit_val base acc s = Some n.
Proof.
  induction s as [|c s IH]; intros acc n H; cbn [number_of] in *; [exact H|].
  unfold dec_digit in H. unfold hex_digit_val at 1. destruct (in_range 48 57 c); [|discriminate]. auto.
Qed.
Lemma number_of_digits digit base f : (forall c, digit c <> None -> f c = true) ->
  forall s acc n, number_of digit base acc s = Some n -> forallb f s = true.
Proof.
  intros Hf. induction s as [|c s IH]; intros acc n H; cbn in *; [reflexivity|].
  destruct (digit c) eqn:E; [|discriminate]. rewrite Hf by congruence. eauto.
Qed.

Lemma assoc_N_none {A} k (l : list (N * A)) : forallb (fun p => negb (N.eqb (fst p) k)) l = true -> assoc_N k l = None.
Proof.
  intros H. unfold assoc_N. destruct (find _ l) eqn:E; [|reflexivity]. apply find_some in E as [E1 E2].
  rewrite forallb_forall in H. apply H in E1. rewrite E2 in E1. discriminate.
Qed.
Lemma dropped_in_list n : (160 <= n)%N -> (n <= 1114111)%N -> dropped_number n = existsb (N.eqb n) invalid_codepoints.
Proof.
  intros H1 H2. destruct (existsb (N.eqb n) invalid_codepoints) eqn:E.
  - apply existsb_exists in E as (x & Hx & E). apply N.eqb_eq in E. subst x.
    assert (G : forallb (fun x => dropped_number x || (x <? 160)%N) invalid_codepoints = true) by (vm_compute; reflexivity).
    rewrite forallb_forall in G. specialize (G _ Hx). cbn beta in G. destruct (dropped_number n); [reflexivity|]. cbn [orb] in G. lia.
  - destruct (dropped_number n) eqn:Ed; [|reflexivity]. exfalso. rewrite <- not_true_iff_false in E. apply E. clear E.
    unfold dropped_number, in_range in Ed.
    assert (Hc : (64976 <= n <= 65007)%N \/ (n mod 65536 = 65534)%N \/ (n mod 65536 = 65535)%N).
    { assert (X : (n mod 65536 < 65536)%N) by (apply N.mod_lt; discriminate).
      revert X Ed. generalize (n mod 65536)%N. clear -H1. intros m. lia. }
    destruct Hc as [Hc|Hc].
    + assert (G : below 32 (fun d => existsb (N.eqb (d + 64976)) invalid_codepoints) = true) by (vm_compute; reflexivity).
      pose proof (below_spec _ _ G (n - 64976)%N) as X. cbn beta in X. replace (n - 64976 + 64976)%N with n in X by lia. apply X. lia.
    + assert (G : below 17 (fun q => existsb (N.eqb (q * 65536 + 65534)) invalid_codepoints && existsb (N.eqb (q * 65536 + 65535)) invalid_codepoints) = true) by (vm_compute; reflexivity).
      assert (Hq : (n / 65536 < 17)%N) by lia.
      pose proof (below_spec _ _ G (n / 65536)%N Hq) as X. cbn beta in X. apply andb_prop in X as [X1 X2].
      destruct Hc as [Hc|Hc]; [replace (n / 65536 * 65536 + 65534)%N with n in X1 by lia; exact X1
                              |replace (n / 65536 * 65536 + 65535)%N with n in X2 by lia; exact X2].
Qed.
Lemma charref_num_text n : charref_num n = number_text n.
Proof.
  destruct (N.ltb n 160) eqn:E.
  - assert (G : below 160 (fun n => str_eqb (charref_num n) (number_text n)) = true) by (vm_compute; reflexivity).
    pose proof (below_spec _ _ G n) as X. cbn beta in X. apply str_eqb_eq, X. lia.
  - unfold charref_num. rewrite assoc_N_none.
    2:{ assert (G : forallb (fun p => (fst p <? 160)%N) invalid_charrefs = true) by (vm_compute; reflexivity).
        rewrite forallb_forall in *. intros p Hp. apply G in Hp. lia. }
    unfold number_text. replace (n =? 0)%N with false by lia. cbn [orb].
    rewrite (orb_comm (1114111 <? n)%N). destruct (in_range 55296 57343 n || (1114111 <? n)%N) eqn:E2; [reflexivity|].
    replace (in_range 128 159 n) with false by (unfold in_range; lia).
    rewrite dropped_in_list by lia. reflexivity.
Qed.

Definition cs1 (c : N) := CS false false [CRange c c].
Lemma cs1_refl c : cmatch (cs1 c) c = true.
Proof. unfold cs1. rewrite case_single. apply N.eqb_refl. Qed.
Definition name_cs : cset := CS true false [CRange 9 9; CRange 10 10; CRange 12 12; CRange 32 32; CRange 60 60; CRange 38 38; CRange 35 35; CRange 59 59].
Definition charref_body : regex :=
  RAlt (RSeq (RChr (cs1 35)) (RSeq (RRep true 1 None (RChr (CS false false [CRange 48 57]))) (RRep true 0 (Some 1) (RChr (cs1 59)))))
 (RAlt (RSeq (RChr (cs1 35)) (RSeq (RChr (CS false false [CRange 120 120; CRange 88 88]))
          (RSeq (RRep true 1 None (RChr (CS false false [CRange 48 57; CRange 97 102; CRange 65 70]))) (RRep true 0 (Some 1) (RChr (cs1 59))))))
       (RSeq (RRep true 1 (Some 32) (RChr name_cs)) (RRep true 0 (Some 1) (RChr (cs1 59))))).
Lemma charref_re_eq : charref_re = RSeq (RChr (cs1 38)) (RGrp 1 charref_body).
Proof. reflexivity. Qed.

Lemma charref_match prev s g a q : 
  s = g ++ a -> hd_error (results charref_body (MS (Some 38%N) s [])) = Some (MS q a []) ->
  match_at charref_re prev (38%N :: s) = Some (38%N :: g, a, [(1, g)]).
Proof.
  intros -> H. rewrite (match_at_hd _ _ _ (MS q a [(1, g)])).
  - cbn [ms_rest ms_caps]. change (38%N :: g ++ a) with ((38%N :: g) ++ a). rewrite firstn_sub. reflexivity.
  - rewrite charref_re_eq, seq_chr by apply cs1_refl. cbn [results ms_caps].
    destruct (results charref_body _); [discriminate|]. injection H as ->. cbn [map hd_error ms_prev ms_rest ms_caps].
    rewrite firstn_sub. reflexivity.
Qed.
Lemma charref_no_amp prev c s : c <> 38%N -> match_at charref_re prev (c :: s) = None.
Proof.
  intros H. apply match_at_none. rewrite charref_re_eq. apply seq_fail, chr_fail. unfold cs1. rewrite case_single.
  apply N.eqb_neq, H.
Qed.
Lemma sub_no_amp f : forall s n prev, ~ In 38%N s -> length s < n -> sub_loop n charref_re f prev s = s.
Proof.
  induction s as [|c s IH]; intros n prev Hs Hn; (destruct n as [|n]; [cbn in Hn; lia|]).
  - cbn [sub_loop]. replace (match_at charref_re prev []) with (@None (str * str * list (nat * str))) by (symmetry; apply match_at_none; reflexivity). reflexivity.
  - cbn [sub_loop]. rewrite charref_no_amp by (intros ->; apply Hs; left; reflexivity).
    rewrite IH; [reflexivity| |cbn in Hn; lia]. intros X. apply Hs. right. exact X.
Qed.
Lemma sub_loop_S n r f prev s :
  sub_loop (S n) r f prev s =
  match match_at r prev s with
  | Some (g, a, caps) =>
      f (RM [] g a caps) ++
      (if is_nil g
       then match s with [] => [] | c :: s' => c :: sub_loop n r f (Some c) s' end
       else sub_loop n r f (last_opt g) a)
  | None => match s with [] => [] | c :: s' => c :: sub_loop n r f (Some c) s' end
  end.
Proof. reflexivity. Qed.
Lemma unescape_one tbl s g a q : ~ In 38%N s ->
  s = g ++ a -> hd_error (results charref_body (MS (Some 38%N) s [])) = Some (MS q a []) ->
  unescape_with tbl (38%N :: s) = replace_charref tbl g ++ a.
Proof.
  intros Hs Es H. unfold unescape_with. cbn [mem_str existsb N.eqb Pos.eqb orb]. unfold re_sub. rewrite sub_loop_S.
  rewrite (charref_match _ _ _ _ _ Es H). cbn [rm_cap rm_caps find fst Nat.eqb snd is_nil].
  rewrite sub_no_amp; [reflexivity| |subst s; cbn [length]; rewrite app_length; lia].
  intros X. apply Hs. subst s. apply in_or_app. right. exact X.
Qed.
Lemma rstrip_semi_app ds : forallb (fun c => negb (N.eqb c 59)) ds = true -> rstrip_semi (ds ++ [59%N]) = ds.
Proof.
  intros H. unfold rstrip_semi, strip_right. rewrite rev_app_distr. cbn [rev app drop_while N.eqb Pos.eqb].
  destruct (rev ds) as [|c l] eqn:E; cbn [drop_while].
  - rewrite <- (rev_involutive ds), E. reflexivity.
  - assert (X : In c ds) by (apply in_rev; rewrite E; left; reflexivity). rewrite forallb_forall in H. apply H in X.
    rewrite N.eqb_sym in X. destruct (N.eqb 59 c); [discriminate|]. rewrite <- E, rev_involutive. reflexivity.
Qed.
Lemma not_in_forallb x s : forallb (fun c => negb (N.eqb c x)) s = true -> ~ In x s.
Proof. intros H X. rewrite forallb_forall in H. apply H in X. rewrite N.eqb_refl in X. discriminate. Qed.

Lemma dec_reference tbl ds n : ds <> [] -> number_of dec_digit 10 0 ds = Some n ->
  unescape_with tbl (u "&#" ++ ds ++ u ";") = number_text n.
Proof.
  intros Hn H. cbn [u app].
  assert (Hd : forallb (in_range 48 57) ds = true).
  { eapply number_of_digits, H. intros c Hc. unfold dec_digit in Hc. destruct (in_range 48 57 c); congruence. }
  assert (H59 : forall x, (x < 48)%N \/ (57 < x)%N -> forallb (fun c => negb (N.eqb c x)) ds = true).
  { intros x Hx. rewrite forallb_forall in *. intros c Hc. apply Hd in Hc. unfold in_range in Hc. lia. }
  set (cs := CS false false [CRange 48 57]).
  assert (Hcm : forall c, cmatch cs c = in_range 48 57 c) by (intros c; unfold cs; cm_unfold; unfold in_range; lia).
  destruct (hd_plus cs (Some 35%N) ds [59%N] [] Hn) as [q Hq].
  { rewrite forallb_forall in *. intros c Hc. rewrite Hcm. auto. } { rewrite Hcm. reflexivity. }
  rewrite (unescape_one tbl (35%N :: ds ++ [59%N]) (35%N :: ds ++ [59%N]) [] (Some 59%N)).
  - rewrite app_nil_r. cbn [replace_charref]. destruct ds as [|c ds]; [congruence|]. cbn [app].
    assert (Hc : in_range 48 57 c = true) by (cbn in Hd; apply andb_prop in Hd; tauto).
    replace (N.eqb c 120 || N.eqb c 88) with false by (unfold in_range in Hc; lia).
    change (c :: ds ++ [59%N]) with ((c :: ds) ++ [59%N]). rewrite rstrip_semi_app by (apply H59; lia).
    rewrite charref_num_text. f_equal. apply number_of_fold, number_of_dec_hex, H.
  - intros [X|X]; [discriminate|]. apply in_app_or in X as [X|[X|[]]]; [|discriminate].
    revert X. apply not_in_forallb, H59. lia.
  - rewrite app_nil_r. reflexivity.
  - apply hd_alt_l. rewrite seq_chr by apply cs1_refl. eapply hd_seq; [exact Hq|]. apply hd_opt, cs1_refl.
Qed.

Lemma hex_reference tbl x ds n : x = 120%N \/ x = 88%N -> ds <> [] -> number_of hex_digit_val 16 0 ds = Some n ->
  unescape_with tbl (u "&#" ++ [x] ++ ds ++ u ";") = number_text n.
Proof.
  intros Hx Hn H. cbn [u app].
  set (f := fun c => in_range 48 57 c || in_range 97 102 c || in_range 65 70 c).
  assert (Hd : forallb f ds = true).
  { eapply number_of_digits, H. intros c Hc. unfold hex_digit_val in Hc. unfold f.
    destruct (in_range 48 57 c); [reflexivity|]. destruct (in_range 97 102 c); [reflexivity|]. destruct (in_range 65 70 c); [reflexivity|congruence]. }
  assert (H59 : forall x, (x < 48)%N \/ (57 < x < 65)%N -> forallb (fun c => negb (N.eqb c x)) ds = true).
  { intros y Hy. rewrite forallb_forall in *. intros c Hc. apply Hd in Hc. unfold f, in_range in Hc. lia. }
  set (cs := CS false false [CRange 48 57; CRange 97 102; CRange 65 70]).
  assert (Hcm : forall c, cmatch cs c = f c) by (intros c; unfold cs, f; cm_unfold; unfold in_range; lia).
  destruct (hd_plus cs (Some x) ds [59%N] [] Hn) as [q Hq].
  { rewrite forallb_forall in *. intros c Hc. rewrite Hcm. auto. } { rewrite Hcm. reflexivity. }
  rewrite (unescape_one tbl (35%N :: x :: ds ++ [59%N]) (35%N :: x :: ds ++ [59%N]) [] (Some 59%N)).
  - rewrite app_nil_r. cbn [replace_charref].
    replace (N.eqb x 120 || N.eqb x 88) with true by lia.
    rewrite rstrip_semi_app by (apply H59; lia).
    rewrite charref_num_text. f_equal. apply number_of_fold, H.
  - intros [X|[X|X]]; [discriminate|lia|]. apply in_app_or in X as [X|[X|[]]]; [|discriminate].
    revert X. apply not_in_forallb, H59. lia.
  - rewrite app_nil_r. reflexivity.
  - unfold charref_body. rewrite hd_alt_r.
    2:{ rewrite seq_chr by apply cs1_refl. apply seq_fail. rewrite results_plus.
        replace (cmatch _ x) with false by (cm_unfold; lia). reflexivity. }
    apply hd_alt_l. rewrite seq_chr by apply cs1_refl. rewrite seq_chr by (cm_unfold; lia).
    eapply hd_seq; [exact Hq|]. apply hd_opt, cs1_refl.
Qed.
Lemma number_text_short n : length (number_text n) <= 1.
Proof. unfold number_text. repeat (destruct (_ : bool); cbn; try lia). Qed.

(** ** Named references (C47) *)
Lemma replace_named tbl g : hd_error g <> Some 35%N ->
  replace_charref tbl g = match assoc_str g tbl with
      | Some v => v
      | None => match named_prefix tbl g (length g - 1) with Some v => v | None => 38%N :: g end
      end.
Proof.
  intros H. unfold replace_charref. destruct g as [|c g]; [reflexivity|]. cbn [hd_error] in H.
  destruct c as [|p]; [reflexivity|]. do 6 (destruct p as [p|p|]; try reflexivity). congruence.
Qed.
Lemma assoc_str_key {A} k (tbl : list (str * A)) v : assoc_str k tbl = Some v -> In (k, v) tbl.
Proof.
  unfold assoc_str. destruct (find _ tbl) as [p|] eqn:E; [|discriminate]. intros H. injection H as <-.
  apply find_some in E as [E1 E2]. apply str_eqb_eq in E2. destruct p; cbn in *; subst. exact E1.
Qed.
Lemma named_prefix_none tbl s : (forall x, x <> 0 -> assoc_str (firstn x s) tbl = None) ->
  forall n, named_prefix tbl s n = None.
Proof. intros H. induction n as [|n IH]; cbn [named_prefix]; [reflexivity|]. destruct (Nat.leb (S n) 1); [reflexivity|]. rewrite H by lia. exact IH. Qed.

Lemma named_unchanged tbl s : s <> [] -> ~ In 38%N s -> hd_error s <> Some 35%N ->
  (forall p q, s = p ++ q -> assoc_str p tbl = None) ->
  unescape_with tbl (38%N :: s) = 38%N :: s.
Proof.
  intros Hne H1 H2 H3.
  destruct (match_at charref_re None (38%N :: s)) as [[[g a] caps]|] eqn:E.
  - pose proof (match_at_spec _ _ _ _ _ _ E) as (Es & st & Hst & Ha & Hc & He).
    rewrite charref_re_eq, seq_chr in Hst by apply cs1_refl. cbn [results] in Hst.
    destruct (results charref_body _) as [|st0 l] eqn:Er; [discriminate|]. cbn [map hd_error] in Hst. injection Hst as <-.
    cbn [ms_rest ms_caps] in *.
    destruct (results_eats charref_body (MS (Some 38%N) s []) st0) as [g' [Eg _]]; [rewrite Er; left; reflexivity|].
    cbn [ms_rest] in Eg. subst a.
    assert (g = 38%N :: g').
    { destruct g as [|x g]; [exfalso|].
      - cbn [app] in Es. rewrite <- Es in Eg. apply (f_equal (@length N)) in Eg. rewrite app_length in Eg. cbn in Eg. lia.
      - cbn [app] in Es. injection Es as <- Es. rewrite Eg in Es. apply app_inv_tail in Es. congruence. }
    subst g. unfold unescape_with. cbn [mem_str existsb N.eqb Pos.eqb orb]. unfold re_sub. rewrite sub_loop_S.
    rewrite E, <- Hc, Eg, firstn_sub. cbn [rm_cap rm_caps find fst Nat.eqb snd is_nil].
    assert (Hg : replace_charref tbl g' = 38%N :: g').
    { rewrite replace_named.
      - rewrite (H3 g' (ms_rest st0)) by exact Eg. rewrite named_prefix_none; [reflexivity|].
        intros x Hx. apply (H3 _ (skipn x g' ++ ms_rest st0)). rewrite app_assoc, firstn_skipn. exact Eg.
      - destruct g' as [|c g']; [discriminate|]. rewrite Eg in H2. exact H2. }
    rewrite Hg. cbn [app]. f_equal. f_equal.
    apply sub_no_amp; [|cbn [length]; rewrite app_length; lia]. intros X. apply H1. rewrite Eg. apply in_or_app. right. exact X.
  - unfold unescape_with. cbn [mem_str existsb N.eqb Pos.eqb orb]. unfold re_sub. rewrite sub_loop_S. rewrite E.
    rewrite sub_no_amp; [reflexivity|exact H1|cbn [length]; lia].
Qed.
Lemma unescape_nil tbl : unescape_with tbl [38%N] = [38%N].
Proof. reflexivity. Qed.
Lemma table_decodes : forall k v, In (k, v) html5_table -> last_opt k = Some 59%N ->
  html_unescape (38%N :: k) = v /\ entitytrans_unescape (38%N :: k) = v.
Proof.
  assert (G : forallb (fun p => negb (opt_eqb N.eqb (last_opt (fst p)) (Some 59%N)) ||
      (str_eqb (html_unescape (38%N :: fst p)) (snd p) && str_eqb (entitytrans_unescape (38%N :: fst p)) (snd p))) html5_table = true)
    by (vm_compute; reflexivity).
  intros k v Hin Hl. rewrite forallb_forall in G. apply G in Hin. cbn [fst snd] in Hin. rewrite Hl in Hin.
  cbn [opt_eqb N.eqb Pos.eqb negb orb] in Hin. apply andb_prop in Hin as [H1 H2].
  apply str_eqb_eq in H1, H2. split; assumption.
Qed.
Lemma assoc_str_none {A} k (tbl : list (str * A)) : ~ In k (map fst tbl) -> assoc_str k tbl = None.
Proof.
  intros H. destruct (assoc_str k tbl) eqn:E; [|reflexivity]. exfalso. apply H. apply assoc_str_key in E.
  apply (in_map fst) in E. exact E.
Qed.
Lemma normalize_uri_uri_chars uri v : Forall code_point uri -> normalize_uri uri = Ok v -> forallb uri_char v = true.
Proof.
  intros H1 H2. pose proof (normalize_uri_chars _ _ H1 H2) as H. rewrite forallb_forall in *.
  intros c Hc. rewrite <- uri_safe_char. auto.
Qed.
