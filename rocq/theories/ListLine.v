(** * Lines with list marks *)
From Verif Require Import Base Regex Common NormRef Node Inlines Blocks Html Main RegexFacts StrFacts Spec SpecTree SpecSame SpecLines SpecParas SpecLists
  TreeFacts CommonFacts StrProp HtmlFacts RenderFacts BlockFacts BlockRun LineFacts ParseFacts Sim SimFacts SameHtml DocFacts TextFacts RuleFacts WordFacts BlankFacts AfterFacts ParaFacts ParaInline ParaDoc.
From Verif Require RegexLang.
From Coq Require Import ZifyBool ZifyNat ZifyN.

(** ** Numbers *)
Lemma digit_facts c : digit c -> is_decimal c = true /\ digit_value c = Some (c - 48)%N.
Proof.
  intros H. assert (Hin : In c [48;49;50;51;52;53;54;55;56;57]%N) by (unfold digit in H; cbn; lia). clear H. revert c Hin.
  apply Forall_forall. repeat constructor; vm_compute; reflexivity.
Qed.
Definition nval (ds : str) : N := fold_left (fun a c => (a * 10 + (c - 48))%N) ds 0%N.
Lemma int_of_digits_val ds : Forall digit ds -> int_of_digits ds = nval ds.
Proof.
  assert (G : forall ds a, Forall digit ds -> fold_left (fun acc c => (acc * 10 + match digit_value c with Some d => d | None => 0 end)%N) ds a = fold_left (fun a c => (a * 10 + (c - 48))%N) ds a).
  { clear ds. induction ds as [|c ds IH]; intros a H; [reflexivity|]. inversion H as [|x y H1 H2]; subst. cbn [fold_left]. destruct (digit_facts c H1) as [_ ->]. apply IH, H2. }
  apply G.
Qed.
Lemma nval_snoc ds c : nval (ds ++ [c]) = (nval ds * 10 + (c - 48))%N.
Proof. unfold nval. rewrite fold_left_app. reflexivity. Qed.
Lemma dec_digits_app : forall f n acc, dec_digits f n acc = dec_digits f n [] ++ acc.
Proof.
  induction f as [|f IH]; intros n acc; cbn [dec_digits]; [reflexivity|]. destruct (N.ltb n 10); [reflexivity|]. rewrite IH, (IH _ [_]), <- app_assoc. reflexivity.
Qed.
Definition lead (ds : str) : Prop := ds <> [] /\ (hd_error ds = Some 48%N -> ds = [48%N]).
Lemma nval_pos : forall ds, Forall digit ds -> lead ds -> ds <> [48%N] -> (1 <= nval ds)%N.
Proof.
  induction ds as [|c ds IH] using rev_ind; intros Hd [L1 L2] Hz; [congruence|]. rewrite nval_snoc. apply Forall_app in Hd as [Hd Hc]. inversion Hc as [|x y H1 _]; subst. unfold digit in H1.
  destruct ds as [|b ds].
  - cbn [app] in *. assert (c <> 48%N) by congruence. unfold nval. cbn. lia.
  - assert (1 <= nval (b :: ds))%N; [|lia]. apply IH; [exact Hd| |].
    + split; [discriminate|]. cbn [hd_error]. intros E. injection E as ->. specialize (L2 eq_refl). destruct ds; discriminate L2.
    + intros E. injection E as -> ->. specialize (L2 eq_refl). discriminate L2.
Qed.
Lemma dec_nval : forall ds f, Forall digit ds -> lead ds -> (nval ds < 2 ^ N.of_nat f)%N -> dec_digits (S f) (nval ds) [] = ds.
Proof.
  induction ds as [|c ds IH] using rev_ind; intros f Hd [L1 L2] Hf; [congruence|]. apply Forall_app in Hd as [Hd Hc]. inversion Hc as [|x y H1 _]; subst. unfold digit in H1.
  rewrite nval_snoc in *. destruct ds as [|b ds].
  - change (nval []) with 0%N. cbn [app]. cbn [dec_digits]. rewrite (proj2 (N.ltb_lt _ _)) by lia. f_equal. rewrite N.mod_small by lia. lia.
  - assert (L : lead (b :: ds)).
    { split; [discriminate|]. cbn [hd_error]. intros E. injection E as ->. specialize (L2 eq_refl). destruct ds; discriminate L2. }
    assert (Hp : (1 <= nval (b :: ds))%N). { apply nval_pos; [exact Hd|exact L|]. intros E. injection E as -> ->. specialize (L2 eq_refl). discriminate L2. }
    cbn [dec_digits]. rewrite (proj2 (N.ltb_ge _ _)) by lia.
    assert (E1 : ((nval (b :: ds) * 10 + (c - 48)) / 10 = nval (b :: ds))%N) by (rewrite N.div_add_l by lia; rewrite (N.div_small (c - 48)) by lia; lia).
    assert (E2 : ((nval (b :: ds) * 10 + (c - 48)) mod 10 = c - 48)%N) by (rewrite N.add_comm, N.mod_add by lia; apply N.mod_small; lia).
    rewrite E1, E2. destruct f as [|f]; [change (2 ^ N.of_nat 0)%N with 1%N in Hf; lia|]. rewrite dec_digits_app. f_equal; [|f_equal; lia]. apply IH; [exact Hd|exact L|].
    rewrite Nat2N.inj_succ, N.pow_succ_r' in Hf. lia.
Qed.
Lemma size_pow n : (n < 2 ^ N.of_nat (N.size_nat n))%N.
Proof.
  pose proof (N.size_gt n) as H. destruct n as [|p]; [cbn; lia|]. assert (E : N.of_nat (N.size_nat (N.pos p)) = N.size (N.pos p)); [|rewrite E; exact H].
  cbn [N.size_nat N.size]. clear H. induction p as [p IH|p IH|]; cbn [Pos.size_nat Pos.size]; [| |reflexivity]; rewrite Nat2N.inj_succ, IH; lia.
Qed.
Lemma no_zeros_spec : forall ds, Forall digit ds -> ds <> [] -> lead (no_zeros ds) /\ nval (no_zeros ds) = nval ds /\ Forall digit (no_zeros ds).
Proof.
  induction ds as [|c ds IH]; intros Hd Hne; [congruence|]. inversion Hd as [|x y H1 H2]; subst. destruct ds as [|b ds].
  - cbn [no_zeros]. split; [split; [discriminate|cbn [hd_error]; intros E; injection E as ->; reflexivity]|]. split; [reflexivity|exact Hd].
  - change (no_zeros (c :: b :: ds)) with (if N.eqb c 48 then no_zeros (b :: ds) else c :: b :: ds). destruct (N.eqb_spec c 48) as [-> | Hc].
    + destruct (IH H2 ltac:(discriminate)) as (I1 & I2 & I3). split; [exact I1|]. split; [rewrite I2; reflexivity|exact I3].
    + split; [split; [discriminate|cbn [hd_error]; intros E; congruence]|]. split; [reflexivity|exact Hd].
Qed.
Lemma number_str ds : Forall digit ds -> ds <> [] -> str_of_N (int_of_digits ds) = no_zeros ds.
Proof.
  intros Hd Hne. rewrite int_of_digits_val by exact Hd. destruct (no_zeros_spec ds Hd Hne) as (I1 & I2 & I3). rewrite <- I2. unfold str_of_N. apply dec_nval; [exact I3|exact I1|apply size_pow].
Qed.
Lemma number_one ds : Forall digit ds -> ds <> [] -> N.eqb (int_of_digits ds) 1 = str_eqb (no_zeros ds) (u "1").
Proof.
  intros Hd Hne. pose proof (number_str ds Hd Hne) as E. destruct (no_zeros_spec ds Hd Hne) as (I1 & I2 & I3). rewrite int_of_digits_val in * by exact Hd. apply eq_true_iff_eq. rewrite str_eqb_eq, N.eqb_eq. split; intros H.
  - rewrite <- E, H. reflexivity.
  - rewrite <- I2, H. reflexivity.
Qed.

(** ** Moving *)
Lemma fnn_at x i c r : rest_offset x = repeat SP i ++ c :: r -> is_space c = false ->
  let z := find_next_nonspace x in
  keeps x z /\ p_next_nonspace z = p_offset x + i /\ p_next_nonspace_column z = p_column x + i /\ p_indent z = i /\ p_indented z = Nat.leb 4 i /\ p_blank z = false /\ rest_nonspace z = c :: r /\
  peek (p_line z) (p_next_nonspace z) = Some c /\ p_offset z = p_offset x /\ p_column z = p_column x /\ p_pct z = p_pct x.
Proof.
  intros El Hc z. assert (Hs : c <> SP /\ c <> TAB /\ c <> 10%N /\ c <> 13%N) by (repeat split; intros ->; discriminate Hc). destruct Hs as (H1 & H2 & H3 & H4).
  split; [apply keeps_fnn|]. unfold z, find_next_nonspace. rewrite El, skip_indent by assumption. unfold rest_nonspace.
  cbn [p_stack p_next_nonspace p_next_nonspace_column p_indent p_indented p_blank p_line p_offset p_column p_pct set_p_indented set_p_indent set_p_next_nonspace_column set_p_next_nonspace set_p_blank].
  assert (Ep : peek (p_line x) (p_offset x + i) = Some c).
  { unfold peek. rewrite <- nth_error_skipn. unfold rest_offset in El. rewrite El. rewrite nth_error_app2; rewrite repeat_length; [|lia]. rewrite Nat.sub_diag. reflexivity. }
  rewrite Ep, (proj2 (N.eqb_neq c 10) H3), (proj2 (N.eqb_neq c 13) H4). replace (p_column x + i - p_column x) with i by lia. repeat split; auto.
  rewrite Nat.add_comm, <- skipn_skipn. unfold rest_offset in El. rewrite El. rewrite skipn_app, skipn_all2 by (rewrite repeat_length; lia). rewrite repeat_length, Nat.sub_diag. reflexivity.
Qed.
Lemma marker_spaces_run : forall k f sc a p c r, skipn (p_offset p) (p_line p) = repeat SP (S k) ++ c :: r -> is_space c = false -> p_column p = sc + a -> a + S k <= 4 -> k < f ->
  marker_spaces f sc p = Ok (mv (p_offset p + S k) (p_column p + S k) false p).
Proof.
  induction k as [|k IH]; intros f sc a p c r El Hc Ec Hk Hf; (destruct f as [|f]; [lia|]); cbn [marker_spaces].
  - change (repeat SP 1 ++ c :: r) with ([SP] ++ c :: r) in El. pose proof (advance_nontab [SP] true p (c :: r) El ltac:(intros [X|[]]; discriminate X) ltac:(discriminate)) as Ea. cbn [length] in Ea. rewrite Ea.
    cbn [length p_column p_offset p_line mv]. assert (Ep : peek (p_line p) (p_offset p + 1) = Some c). { unfold peek. rewrite <- nth_error_skipn, El. reflexivity. }
    rewrite Ep. assert (Hs : is_space_or_tab (Some c) = false). { cbn [is_space_or_tab]. destruct (N.eqb_spec c SP) as [-> | _]; [discriminate Hc|]. destruct (N.eqb_spec c TAB) as [-> | _]; [discriminate Hc|]. reflexivity. }
    rewrite Hs, andb_false_r. reflexivity.
  - change (repeat SP (S (S k)) ++ c :: r) with ([SP] ++ (repeat SP (S k) ++ c :: r)) in El. pose proof (advance_nontab [SP] true p (repeat SP (S k) ++ c :: r) El ltac:(intros [X|[]]; discriminate X) ltac:(discriminate)) as Ea. cbn [length] in Ea. rewrite Ea.
    cbn [length p_column p_offset p_line mv]. assert (Ep : peek (p_line p) (p_offset p + 1) = Some SP). { unfold peek. rewrite <- nth_error_skipn, El. reflexivity. }
    rewrite Ep. rewrite (proj2 (Nat.ltb_lt _ _)) by lia. change (is_space_or_tab (Some SP)) with true. cbn [andb].
    rewrite (IH f sc (S a) (mv (p_offset p + 1) (p_column p + 1) false p) c r); [|cbn [p_offset p_line mv]; rewrite Nat.add_comm, <- skipn_skipn, El; reflexivity|exact Hc|cbn [p_column mv]; lia|lia|lia].
    cbn [p_offset p_column mv]. rewrite mv_mv. f_equal. f_equal; lia.
Qed.

(** ** Marks *)
Definition mark_data (m : mark) (off pad : nat) : ldata :=
  match m with
  | Bullet c => LD bullet true (Some c) None None pad off
  | Number ds d => LD ordered true None (Some (int_of_digits ds)) (Some d) pad off
  end.
Lemma bullet_in c : In c (u "*+-") -> c = 42%N \/ c = 43%N \/ c = 45%N.
Proof. cbn. intros [<-|[<-|[<-|[]]]]; auto. Qed.
Lemma bullet_re : reBulletListMarker = RSeq RBol (RChr (match reBulletListMarker with RSeq _ (RChr cs) => cs | _ => CS false false [] end)).
Proof. vm_compute. reflexivity. Qed.
Lemma search_bullet c r : re_search reBulletListMarker (c :: r) = if cmatch (match reBulletListMarker with RSeq _ (RChr cs) => cs | _ => CS false false [] end) c then Some (RM [] [c] r []) else None.
Proof. rewrite bullet_re, re_search_bol, match_at_chr. destruct (cmatch _ c); reflexivity. Qed.
Lemma search_number ds d r : 1 <= length ds <= 9 -> Forall digit ds -> d = 46%N \/ d = 41%N -> 
  exists m, re_search reOrderedListMarker (ds ++ d :: r) = Some m /\ rm_group m = ds ++ [d] /\ rm_cap m 1 = Some ds /\ rm_cap m 2 = Some [d].
Proof.
  intros Hl Hd Hx. destruct (re_search reOrderedListMarker (ds ++ d :: r)) as [m|] eqn:E.
  - exists m. split; [reflexivity|]. apply ordered_shape in E as (ds' & d' & G1 & G2 & G3 & G4 & G5 & G6 & G7).
    assert (Eq : ds = ds' /\ d = d').
    { assert (Nd : is_decimal d = false) by (destruct Hx as [-> | ->]; vm_compute; reflexivity). assert (Nd' : is_decimal d' = false) by (destruct G5 as [<-|[<-|[]]]; vm_compute; reflexivity).
      assert (D : Forall (fun c => is_decimal c = true) ds) by (eapply Forall_impl; [|exact Hd]; intros c Hc; apply digit_facts, Hc).
      clear -G2 G4 D Nd Nd'. revert ds' G2 G4. induction D as [|c ds Hc _ IH]; intros ds' G2 G4; destruct ds' as [|c' ds'].
      - cbn [app] in G2. injection G2 as -> _. auto.
      - cbn [app] in G2. injection G2 as -> _. inversion G4; congruence.
      - cbn [app] in G2. injection G2 as -> _. congruence.
      - cbn [app] in G2. injection G2 as -> G2. inversion G4; subst. destruct (IH _ G2) as [-> ->]; auto. }
    destruct Eq as [-> ->]. auto.
  - exfalso. rewrite reOrdered_shape, re_search_bol in E. destruct (match_at ord_re None (ds ++ d :: r)) as [[[g a] caps]|] eqn:Em; [discriminate|].
    rewrite RegexLang.match_at_none_L in Em by (vm_compute; reflexivity). apply (Em (ds ++ [d]) r); [rewrite <- app_assoc; reflexivity|]. unfold ord_re. cbn [RegexLang.L].
    exists ds, [d]. split; [reflexivity|]. split.
    + change (RegexLang.L (RRep true 1 (Some 9) (RChr (CS false false [CDigit]))) None ds ([d] ++ r)). apply RegexLang.L_rep_chr. split; [lia|]. split; [cbn; lia|]. eapply Forall_impl; [|exact Hd]. intros c Hc. unfold cmatch. cbn. destruct (digit_facts c Hc) as [-> _]. reflexivity.
    + exists d. split; [reflexivity|]. destruct Hx as [-> | ->]; vm_compute; reflexivity.
Qed.
Lemma mark_marker m rest i : mark_ok m -> list_marker (mark_text m ++ rest) false i = Some (mark_text m, mark_data m i 0).
Proof.
  intros Hm. unfold list_marker. destruct m as [c|ds d]; cbn [mark_text mark_ok] in *.
  - cbn [app]. rewrite search_bullet. apply bullet_in in Hm as [-> | [-> | ->]]; reflexivity.
  - destruct Hm as (Hl & Hd & Hx). assert (Eb : re_search reBulletListMarker ((ds ++ [d]) ++ rest) = None).
    { destruct ds as [|c ds]; [cbn in Hl; lia|]. inversion Hd as [|x y H1 H2]; subst. cbn [app]. rewrite search_bullet. unfold digit in H1.
      assert (Hin : In c [48;49;50;51;52;53;54;55;56;57]%N) by (cbn; lia). clear -Hin. repeat (destruct Hin as [<-|Hin]; [reflexivity|]). destruct Hin. }
    rewrite Eb, <- app_assoc. cbn [app]. destruct (search_number ds d rest Hl Hd Hx) as (m & -> & E1 & E2 & E3). rewrite E1, E2, E3. cbn [or_empty negb orb hd_error]. reflexivity.
Qed.
Lemma mark_len m : mark_ok m -> 1 <= length (mark_text m).
Proof. destruct m; cbn [mark_text mark_ok]; intros H; [cbn; lia|rewrite app_length; cbn; lia]. Qed.
Lemma mark_notab m : mark_ok m -> ~ In TAB (mark_text m).
Proof.
  destruct m as [c|ds d]; cbn [mark_text mark_ok]; intros H X.
  - destruct X as [->|[]]. apply bullet_in in H. unfold TAB in H. lia.
  - destruct H as (_ & Hd & Hx). apply in_app_or in X as [X|[->|[]]]; [|unfold TAB in Hx; lia]. rewrite Forall_forall in Hd. specialize (Hd _ X). unfold digit, TAB in Hd. lia.
Qed.
Lemma set_padding m off a b : set_ld_padding b (mark_data m off a) = mark_data m off b.
Proof. destruct m; reflexivity. Qed.
Lemma parse_mark z ct m k c r : ntype_eqb ct paragraph = false -> p_indent z <= 3 -> rest_nonspace z = mark_text m ++ repeat SP k ++ c :: r -> 1 <= k <= 4 -> is_space c = false -> mark_ok m ->
  parse_list_marker ct z = Ok (Some (mark_data m (p_indent z) (length (mark_text m) + k)),
    mv (p_next_nonspace z + length (mark_text m) + k) (p_next_nonspace_column z + length (mark_text m) + k) false z).
Proof.
  intros Ect Hi Er Hk Hc Hm. unfold parse_list_marker. rewrite (proj2 (Nat.leb_gt 4 (p_indent z))) by lia. rewrite Ect, Er, mark_marker by exact Hm. cbn [andb].
  unfold rest_nonspace in Er. pose proof (mark_len m Hm) as Hlen.
  assert (Ea : skipn (p_next_nonspace z + length (mark_text m)) (p_line z) = repeat SP k ++ c :: r).
  { rewrite Nat.add_comm, <- skipn_skipn, Er. rewrite skipn_app, skipn_all, Nat.sub_diag. reflexivity. }
  assert (Ep : peek (p_line z) (p_next_nonspace z + length (mark_text m)) = Some SP).
  { unfold peek. rewrite <- (Nat.add_0_r (_ + _)), <- nth_error_skipn, Ea. destruct k; [lia|reflexivity]. }
  rewrite Ep. change (N.eqb SP TAB || N.eqb SP SP) with true. cbn [negb].
  rewrite (advance_nontab (mark_text m) true (advance_next_nonspace z) (repeat SP k ++ c :: r)); [|exact Er|apply mark_notab, Hm|intros E; rewrite E in Hlen; cbn in Hlen; lia].
  rewrite advance_next_nonspace_mv, mv_mv. cbn [p_offset p_column mv]. destruct k as [|k]; [lia|].
  rewrite (marker_spaces_run k 6 (p_next_nonspace_column z + length (mark_text m)) 0 _ c r); [|cbn [p_offset p_line mv]; exact Ea|exact Hc|cbn [p_column mv]; lia|lia|lia].
  cbn [bind p_offset p_column mv]. rewrite mv_mv. cbn [p_line p_offset p_column mv].
  replace (p_next_nonspace_column z + length (mark_text m) + S k - (p_next_nonspace_column z + length (mark_text m))) with (S k) by lia.
  rewrite (proj2 (Nat.leb_gt 5 (S k))) by lia. rewrite (proj2 (Nat.ltb_ge (S k) 1)) by lia.
  assert (Ec : peek (p_line z) (p_next_nonspace z + length (mark_text m) + S k) = Some c).
  { unfold peek. rewrite <- nth_error_skipn, Ea. rewrite nth_error_app2; rewrite repeat_length; [|lia]. rewrite Nat.sub_diag. reflexivity. }
  rewrite Ec. cbn [orb]. rewrite set_padding. reflexivity.
Qed.

(** ** Nothing else starts *)
Lemma try_none_in ct z c r : ntype_eqb ct paragraph = false -> p_indented z = false -> p_indent z <= 3 -> rest_nonspace z = c :: r -> peek (p_line z) (p_next_nonspace z) = Some c -> p_stack z <> [] ->
  no_start (c :: r) -> try_starts block_starts ct z = Ok (SNone, z).
Proof.
  intros Ect Ei Ei' Er Ep Es (N1 & N2 & N3 & N4 & N5 & N6). unfold block_starts. cbn [try_starts].
  assert (C1 : opt_is 62 (Some c) = false) by (cbn [opt_is]; apply N.eqb_neq; intros ->; apply N1; reflexivity).
  assert (C2 : opt_is 60 (Some c) = false) by (cbn [opt_is]; apply N.eqb_neq; intros ->; apply N2; reflexivity).
  unfold start_block_quote at 1. rewrite Ei, Ep, C1. cbn [negb andb bind]. unfold start_atx_heading at 1. rewrite Ei, Er, N3. cbn [bind].
  unfold start_fenced_code at 1. rewrite Ei, Er, N4. cbn [bind]. unfold start_html_block at 1. rewrite Ei, Ep, C2. cbn [negb andb bind].
  unfold start_setext_heading at 1. rewrite Ect, andb_false_r. cbn [bind].
  unfold start_thematic_break at 1. rewrite Er, N5, andb_false_r. cbn [bind].
  unfold start_list_item at 1. rewrite Ei. cbn [negb orb]. unfold parse_list_marker. rewrite (proj2 (Nat.leb_gt 4 (p_indent z))) by lia.
  rewrite Ect, Er.
  assert (El : forall m, nth_error (p_line z) (p_next_nonspace z + m) = nth_error (c :: r) m).
  { intros m. rewrite <- Er. unfold rest_nonspace. rewrite nth_error_skipn. reflexivity. }
  destruct (p_stack z) as [|f st] eqn:Est; [congruence|].
  destruct (list_marker (c :: r) false (p_indent z)) as [[m dt]|] eqn:Em; cbn [bind].
  - unfold peek. rewrite El. destruct (N6 _ _ _ Em) as (x & -> & X1 & X2). rewrite (proj2 (N.eqb_neq x SP) X1), (proj2 (N.eqb_neq x TAB) X2). cbn [orb negb bind].
    unfold start_indented_code, tip. rewrite Est, Ei. cbn [hd_error of_option bind andb]. reflexivity.
  - unfold start_indented_code, tip. rewrite Est, Ei. cbn [hd_error of_option bind andb]. reflexivity.
Qed.
(** only a list item starts with a mark *)
Lemma mark_head m : mark_ok m -> exists c r, mark_text m = c :: r /\ (In c (u "*+-") \/ digit c).
Proof.
  destruct m as [c|ds d]; cbn [mark_text mark_ok].
  - intros H. exists c, []. auto.
  - intros (Hl & Hd & _). destruct ds as [|c ds]; [cbn in Hl; lia|]. exists c, (ds ++ [d]). inversion Hd; subst. auto.
Qed.
Lemma mark_others m k w c : mark_ok m -> hd_error w = Some c -> is_space c = false -> ~ block_char c -> ~ In 10%N w -> let l := mark_text m ++ repeat SP k ++ w in
  hd_error l <> Some 62%N /\ hd_error l <> Some 60%N /\ re_search reATXHeadingMarker l = None /\ re_search reCodeFence l = None /\ re_test reThematicBreak l = false.
Proof.
  intros Hm Hw Hc Hb Hn l. destruct (mark_head m Hm) as (x & r & Em & Hx).
  assert (Hne : forall y, In y [62; 60; 35; 96; 126; 95]%N -> x <> y).
  { intros y Hy ->. cbn [In] in Hy. destruct Hx as [Hx|Hx]; [apply bullet_in in Hx; lia|unfold digit in Hx; lia]. }
  assert (El : l = x :: r ++ repeat SP k ++ w) by (unfold l; rewrite Em; reflexivity). rewrite El.
  split; [|split; [|split; [|split]]].
  - cbn [hd_error]. intros E. injection E as ->. apply (Hne 62%N); cbn; tauto.
  - cbn [hd_error]. intros E. injection E as ->. apply (Hne 60%N); cbn; tauto.
  - assert (E : reATXHeadingMarker = RSeq RBol (match reATXHeadingMarker with RSeq _ r => r | r => r end)) by (vm_compute; reflexivity). rewrite E. clear E. apply begins_search; [vm_compute; reflexivity|vm_compute; reflexivity|].
    firsts_calc. pose proof (Hne 35%N ltac:(cbn; tauto)). lia.
  - apply fence_first. firsts_calc. pose proof (Hne 96%N ltac:(cbn; tauto)). pose proof (Hne 126%N ltac:(cbn; tauto)). lia.
  - rewrite <- El. destruct (re_test reThematicBreak l) eqn:E; [|reflexivity]. exfalso. apply thematic_iff in E.
    + destruct E as (b & B1 & B2 & _ & B4). rewrite Forall_forall in B4. destruct w as [|c' w]; [discriminate|]. injection Hw as ->.
      assert (Hin : In c l) by (unfold l; rewrite !in_app_iff; right; right; left; reflexivity). destruct (B4 c Hin) as [-> | [-> | ->]]; [|discriminate Hc|discriminate Hc].
      apply Hb. unfold block_char. cbn in B1 |- *. tauto.
    + unfold l. rewrite !in_app_iff. intros [X|[X|X]].
      * destruct m as [b|ds d]; cbn [mark_text mark_ok] in *; [destruct X as [X|[]]; subst b; apply bullet_in in Hm; lia|]. destruct Hm as (_ & Hd & Hd'). apply in_app_or in X as [X|[X|[]]]; [rewrite Forall_forall in Hd; specialize (Hd _ X); unfold digit in Hd; lia|lia].
      * apply repeat_spec in X. discriminate.
      * exact (Hn X).
Qed.

(** ** The line of an item *)
Definition open_list (data : ldata) (p2 : parser) : res parser :=
  let* t := tip p2 in
  if negb (ntype_eqb (f_type t) list_) || negb (lists_match (n_list_data (f_data t)) data)
  then let* q := add_child list_ (p_next_nonspace p2) p2 in on_tip (set_n_list_data (Some data)) q
  else Ok p2.
Definition item_data (data : ldata) (n i : nat) : ndata := set_n_list_data (Some data) (new_node item (Some (n, i + 1, (0, 0)))).
Definition list_node (data : ldata) (n i : nat) : ndata := set_n_list_data (Some data) (new_node list_ (Some (n, i + 1, (0, 0)))).
(** nothing about the line changes *)
Definition same_line (z y : parser) : Prop :=
  p_line y = p_line z /\ p_line_number y = p_line_number z /\ p_offset y = p_offset z /\ p_column y = p_column z /\ p_pct y = p_pct z /\ p_blank y = p_blank z /\
  p_next_nonspace y = p_next_nonspace z /\ p_next_nonspace_column y = p_next_nonspace_column z /\ p_refmap y = p_refmap z /\ p_smart y = p_smart z /\ p_last_line_length y = p_last_line_length z.
Lemma same_line_refl z : same_line z z.
Proof. unfold same_line. auto 20. Qed.
Lemma same_line_trans a b c : same_line a b -> same_line b c -> same_line a c.
Proof. unfold same_line. intros (A1 & A2 & A3 & A4 & A5 & A6 & A7 & A8 & A9 & A10 & A11) (B1 & B2 & B3 & B4 & B5 & B6 & B7 & B8 & B9 & B10 & B11). repeat split; congruence. Qed.

Lemma start_item ct z data z' y p3 lf st : p_indented z = false -> parse_list_marker ct z = Ok (Some data, z') -> close_unmatched_blocks z' = Ok y -> open_list data y = Ok p3 -> p_stack p3 = lf :: st -> f_type lf = list_ ->
  start_list_item ct z = Ok (SContainer, set_p_stack (F (item_data data (p_line_number p3) (p_next_nonspace p3)) [] :: lf :: st) p3).
Proof.
  intros Ei Em Ec Eo Es El. unfold start_list_item. rewrite Ei, Em. cbn [negb orb bind]. rewrite Ec. cbn [bind]. unfold open_list in Eo. destruct (tip y) as [t|e]; [|discriminate]. cbn [bind] in *. rewrite Eo. cbn [bind].
  unfold add_child. rewrite Es. cbn [length make_room]. unfold tip. rewrite Es. cbn [hd_error of_option bind]. rewrite El. change (can_contain list_ item) with (Ok (A:=bool) true). cbn [bind].
  unfold on_tip. cbn [p_stack set_p_stack bind f_data f_kids set_f_data]. rewrite Es. destruct p3; reflexivity.
Qed.
Lemma try_item ct z m k w c data z' y p3 lf st : ntype_eqb ct paragraph = false -> p_indented z = false -> mark_ok m -> hd_error w = Some c -> is_space c = false -> ~ block_char c -> ~ In 10%N w ->
  rest_nonspace z = mark_text m ++ repeat SP k ++ w -> peek (p_line z) (p_next_nonspace z) = hd_error (mark_text m) ->
  parse_list_marker ct z = Ok (Some data, z') -> close_unmatched_blocks z' = Ok y -> open_list data y = Ok p3 -> p_stack p3 = lf :: st -> f_type lf = list_ ->
  try_starts block_starts ct z = Ok (SContainer, set_p_stack (F (item_data data (p_line_number p3) (p_next_nonspace p3)) [] :: lf :: st) p3).
Proof.
  intros Ect Ei Hm Hw Hc Hb Hn Er Ep Em Ec Eo Es El. destruct (mark_others m k w c Hm Hw Hc Hb Hn) as (N1 & N2 & N3 & N4 & N5). rewrite <- Er in N1, N2, N3, N4, N5.
  assert (Eh : peek (p_line z) (p_next_nonspace z) = hd_error (rest_nonspace z)). { rewrite Ep, Er. destruct (mark_head m Hm) as (x & r & -> & _). reflexivity. }
  unfold block_starts. cbn [try_starts].
  assert (C1 : opt_is 62 (peek (p_line z) (p_next_nonspace z)) = false) by (rewrite Eh; destruct (hd_error (rest_nonspace z)) as [x|]; [|reflexivity]; cbn [opt_is]; apply N.eqb_neq; congruence).
  assert (C2 : opt_is 60 (peek (p_line z) (p_next_nonspace z)) = false) by (rewrite Eh; destruct (hd_error (rest_nonspace z)) as [x|]; [|reflexivity]; cbn [opt_is]; apply N.eqb_neq; congruence).
  unfold start_block_quote at 1. rewrite Ei, C1. cbn [negb andb bind]. unfold start_atx_heading at 1. rewrite Ei, N3. cbn [bind].
  unfold start_fenced_code at 1. rewrite Ei, N4. cbn [bind]. unfold start_html_block at 1. rewrite Ei, C2. cbn [negb andb bind].
  unfold start_setext_heading at 1. rewrite Ect, andb_false_r. cbn [bind].
  unfold start_thematic_break at 1. rewrite N5, andb_false_r. cbn [bind].
  rewrite (start_item ct z data z' y p3 lf st Ei Em Ec Eo Es El). reflexivity.
Qed.

Lemma skip_three i (t : str) k r : skipn (i + length t + k) (repeat SP i ++ t ++ repeat SP k ++ r) = r.
Proof.
  rewrite !app_assoc, skipn_app. rewrite skipn_all2 by (rewrite !app_length, !repeat_length; lia). rewrite !app_length, !repeat_length, Nat.sub_diag. reflexivity.
Qed.
Definition unblank (f : frame) : frame := F (set_n_last_line_blank false (f_data f)) (f_kids f).
(** [x] is the parser in front of the line with the open blocks matched up to depth [dep]; closing
    the others and opening a list leads to the list [lf] *)
Lemma item_rest (PL : frame -> list frame -> Prop) ln x dep fr ct i m k w c data :
  block_at dep x = Ok fr -> f_type fr = ct -> ct = document \/ ct = list_ -> rest_offset x = repeat SP i ++ mark_text m ++ repeat SP k ++ w -> i <= 3 -> mark_ok m -> 1 <= k <= 4 ->
  hd_error w = Some c -> is_space c = false -> ~ block_char c -> ~ list_number w -> ~ In 10%N w -> p_offset x = 0 -> p_column x = 0 -> p_line x = ln ->
  data = mark_data m i (length (mark_text m) + k) ->
  (forall z, keeps x z -> p_blank z = false -> p_next_nonspace z = i -> exists y p3 lf st, close_unmatched_blocks z = Ok y /\ open_list data y = Ok p3 /\ p_stack p3 = lf :: st /\ same_line z p3 /\ p_all_closed p3 = true /\ f_type lf = list_ /\ PL lf st) ->
  exists p' lf st, PL lf st /\ line_tail (S (length ln)) ln dep x = Ok p' /\
    p_stack p' = F (para_data (p_line_number x) (i + length (mark_text m) + k) (w ++ [LF])) [] :: F (item_data data (p_line_number x) i) [] :: unblank lf :: map unblank st /\
    p_line_number p' = p_line_number x /\ p_refmap p' = p_refmap x /\ p_smart p' = p_smart x.
Proof.
  intros Eb Ef Hct Er Hi Hm Hk Hw Hc Hbc Hln Hnl Eo Ec El Ed Hclose. unfold line_tail.
  assert (Ect : ntype_eqb ct paragraph = false) by (destruct Hct as [-> | ->]; reflexivity).
  destruct (mark_head m Hm) as (x0 & r0 & Em & Hx0). assert (Hs0 : is_space x0 = false). { destruct Hx0 as [Hx|Hx]; [apply bullet_in in Hx as [-> | [-> | ->]]; reflexivity|]. assert (Hin : In x0 [48;49;50;51;52;53;54;55;56;57]%N) by (unfold digit in Hx; cbn; lia). clear -Hin. repeat (destruct Hin as [<-|Hin]; [reflexivity|]). destruct Hin. }
  destruct w as [|c' w]; [discriminate|]. injection Hw as ->.
  assert (Er' : rest_offset x = repeat SP i ++ x0 :: (r0 ++ repeat SP k ++ c :: w)) by (rewrite Er, Em; reflexivity).
  destruct (fnn_at x i x0 _ Er' Hs0) as (Z0 & Z1 & Z2 & Z3 & Z4 & Z5 & Z6 & Z7 & Z8 & Z9 & Z10). rewrite Eo in Z1, Z8. rewrite Ec in Z2, Z9. cbn [Nat.add] in Z1, Z2.
  cbn [starts_loop]. remember (find_next_nonspace x) as z eqn:Z. clear Z.
  assert (Ei : p_indented z = false) by (rewrite Z4; apply Nat.leb_gt; lia). rewrite Ei. cbn [negb andb].
  assert (Hms : re_test reMaybeSpecial (rest_nonspace z) = true).
  { rewrite Z6, (re_test_bol (RChr (match reMaybeSpecial with RSeq _ (RChr cs) => cs | _ => CS false false [] end))), match_at_chr.
    match goal with |- context [cmatch ?cs x0] => replace (cmatch cs x0) with true; [reflexivity|] end. symmetry.
    destruct Hx0 as [Hx|Hx]; [apply bullet_in in Hx as [-> | [-> | ->]]; vm_compute; reflexivity|]. assert (Hin : In x0 [48;49;50;51;52;53;54;55;56;57]%N) by (unfold digit in Hx; cbn; lia). clear -Hin. repeat (destruct Hin as [<-|Hin]; [vm_compute; reflexivity|]). destruct Hin. }
  rewrite Hms. cbn [negb]. pose proof Z0 as (K1 & K2 & K3 & K4 & K5 & K6 & K7 & K8).
  assert (Eb' : block_at dep z = Ok fr) by (unfold block_at in *; rewrite K1; exact Eb). rewrite Eb'. cbn [bind]. rewrite Ef.
  assert (Erz : rest_nonspace z = mark_text m ++ repeat SP k ++ c :: w) by (rewrite Z6, Em; reflexivity).
  pose proof (parse_mark z ct m k c w Ect ltac:(lia) Erz Hk Hc Hm) as Epm. rewrite Z1, Z2, Z3, <- Ed in Epm.
  set (z' := mv (i + length (mark_text m) + k) (i + length (mark_text m) + k) false z) in *.
  destruct (Hclose z') as (y & p3 & lf & st & Ey & Ep3 & Es3 & Hsl & Hac & Elf & HPL); [exact Z0|exact Z5|exact Z1|].
  rewrite (try_item ct z m k (c :: w) c data z' y p3 lf st Ect Ei Hm eq_refl Hc Hbc Hnl Erz ltac:(rewrite Em; exact Z7) Epm Ey Ep3 Es3 Elf). cbn [bind].
  destruct Hsl as (S1 & S2 & S3 & S4 & S5 & S6 & S7 & S8 & S9 & S10 & S11). unfold z' in *. cbn [p_line p_line_number p_offset p_column p_pct p_blank p_next_nonspace p_next_nonspace_column p_refmap p_smart p_last_line_length mv] in S1, S2, S3, S4, S5, S6, S7, S8, S9, S10, S11.
  rewrite S2, S7, K3, Z1. set (st4 := F (item_data data (p_line_number x) i) [] :: lf :: st).
  assert (Q : let q := set_p_stack st4 p3 in p_stack q = st4 /\ p_line q = ln /\ p_line_number q = p_line_number x /\ p_offset q = i + length (mark_text m) + k /\ p_column q = i + length (mark_text m) + k /\ p_pct q = false /\ p_refmap q = p_refmap x /\ p_smart q = p_smart x /\ p_all_closed q = true).
  { cbn. repeat split; congruence. }
  remember (set_p_stack st4 p3) as q eqn:Zq. cbn zeta in Q. clear Zq. destruct Q as (Q1 & Q2 & Q3 & Q4 & Q5 & Q6 & Q7 & Q8 & Q9).
  set (off := i + length (mark_text m) + k) in *.
  assert (Eln : ln = repeat SP i ++ mark_text m ++ repeat SP k ++ c :: w). { unfold rest_offset in Er. rewrite Eo in Er. cbn [skipn] in Er. congruence. }
  assert (Hoff : skipn off ln = c :: w).
  { rewrite Eln. apply skip_three. }
  assert (Hlen : exists fu, length ln = S fu). { destruct ln as [|a ln']; [destruct off; discriminate Hoff|]. eexists. reflexivity. } destruct Hlen as (fu & Hfu).
  assert (Hot : off < length ln). { destruct (Nat.ltb_spec off (length ln)) as [H|H]; [exact H|]. rewrite (skipn_all2 _ H) in Hoff. discriminate. }
  assert (Y : exists y', starts_loop (length ln) (length (p_stack q)) q = Ok (length (p_stack q), y') /\ keeps q y' /\ p_blank y' = false /\ p_offset y' = off /\ p_next_nonspace y' = off /\ p_next_nonspace_column y' = off).
  { rewrite Hfu. cbn [starts_loop]. assert (Erq : rest_offset q = repeat SP 0 ++ c :: w) by (unfold rest_offset; rewrite Q4, Q2; exact Hoff).
    destruct (fnn_at q 0 c w Erq Hc) as (W0 & W1 & W2 & W3 & W4 & W5 & W6 & W7 & W8 & W9 & W10). rewrite Q4, Nat.add_0_r in W1. rewrite Q5, Nat.add_0_r in W2. remember (find_next_nonspace q) as v eqn:V. clear V.
    assert (Hend : keeps q (advance_next_nonspace v) /\ p_blank (advance_next_nonspace v) = false /\ p_offset (advance_next_nonspace v) = off /\ p_next_nonspace (advance_next_nonspace v) = off /\ p_next_nonspace_column (advance_next_nonspace v) = off).
    { split; [eapply keeps_trans; [exact W0|apply keeps_ann]|]. cbn. auto 10. }
    rewrite W4. change (Nat.leb 4 0) with false. cbn [negb andb]. destruct (re_test reMaybeSpecial (rest_nonspace v)); cbn [negb]; [|eexists; split; [reflexivity|exact Hend]].
    pose proof W0 as (V1 & _). unfold block_at. rewrite V1, Q1. unfold st4. rewrite Nat.sub_diag. cbn [nth_error of_option bind]. change (f_type (F (item_data data (p_line_number x) i) [])) with item.
    rewrite (try_none_in item v c w eq_refl W4 ltac:(rewrite W3; repeat constructor) W6 W7); [|rewrite V1, Q1; discriminate|apply no_start_text; [apply block_start; exact Hbc|exact Hln]]. cbn [bind]. eexists. split; [reflexivity|exact Hend]. }
  destruct Y as (y' & -> & (V1 & V2 & V3 & V4 & V5 & V6 & V7 & V8) & Y1 & Y2 & Y3 & Y4). cbn [bind].
  unfold line_end, tip. rewrite V1, Q1. unfold st4. cbn [hd_error of_option bind]. rewrite V4, Q9. cbn [negb andb]. unfold add_text, close_unmatched_blocks. rewrite V4, Q9. cbn [bind]. unfold tip.
  rewrite V1, Q1, Y1. unfold st4. cbn [hd_error of_option bind f_kids f_data tl]. cbn [n_sourcepos item_data set_n_list_data new_node bind andb]. change (f_type (F (item_data data (p_line_number x) i) [])) with item. change (accepts_lines item) with (Ok (A:=bool) false). cbn [bind andb map].
  cbn [p_blank p_offset p_line set_p_stack]. rewrite Y1, Y2, V2, Q2. rewrite (proj2 (Nat.ltb_lt _ _) Hot). cbn [negb andb].
  unfold add_child. cbn [p_stack set_p_stack length]. cbn [make_room]. unfold tip. cbn [p_stack set_p_stack hd_error of_option bind]. unfold f_type, set_f_data. cbn [f_data f_kids n_t set_n_last_line_blank item_data set_n_list_data new_node].
  change (can_contain item paragraph) with (Ok (A:=bool) true). cbn [bind]. unfold add_line, tip. cbn [p_stack set_p_stack advance_next_nonspace set_p_pct set_p_column set_p_offset hd_error of_option bind f_data n_string_content new_node p_pct].
  unfold on_tip, rest_offset, advance_next_nonspace. cbn [p_stack set_p_stack set_p_pct set_p_column set_p_offset p_offset p_line p_line_number p_next_nonspace p_next_nonspace_column bind app]. rewrite Y3, V2, V3, Q2, Q3, Hoff.
  eexists. exists lf, st. split; [exact HPL|]. split; [reflexivity|]. cbn [p_stack p_line_number p_refmap p_smart p_last_line_length set_p_last_line_length set_p_stack set_p_pct set_p_column set_p_offset set_f_data f_data f_kids].
  split; [rewrite Nat.add_1_r; reflexivity|]. repeat split; congruence.
Qed.
