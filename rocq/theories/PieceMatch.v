(** * The patterns match references, addresses and tags: C53 *)
From Verif Require Import Base Regex Common NormRef Node Inlines Blocks RegexFacts StrFacts Spec SpecLines SpecRefs SpecPieces
  CommonFacts StrProp HtmlFacts TextFacts AngleFacts RefLine PieceRegex.
From Verif Require Import RegexLang.
From Coq Require Import ZifyBool ZifyNat ZifyN.

Lemma L_chr_seq cs b c g p q : cmatch cs c = true -> (forall p', L b p' g q) -> L (RSeq (RChr cs) b) p (c :: g) q.
Proof. intros H1 H2. exists [c], g. split; [reflexivity|]. split; [exists c; auto|apply H2]. Qed.
Lemma L_seq a b g1 g2 p q : L a p g1 (g2 ++ q) -> (forall p', L b p' g2 q) -> L (RSeq a b) p (g1 ++ g2) q.
Proof. intros H1 H2. exists g1, g2. auto. Qed.
Lemma L_chr cs c p q : cmatch cs c = true -> L (RChr cs) p [c] q.
Proof. intros H. exists c. auto. Qed.
Lemma L_many gr mn mx cs g p q : mn <= length g -> match mx with Some M => length g <= Nat.max mn M | None => True end -> Forall (fun c => cmatch cs c = true) g -> L (RRep gr mn mx (RChr cs)) p g q.
Proof. intros. apply L_rep_chr. auto. Qed.
Lemma L_opt_none gr M r p q : L (RRep gr 0 (Some M) r) p [] q.
Proof. exists 0. split; [lia|]. split; [lia|reflexivity]. Qed.
Lemma L_opt_one gr M r p g q : 1 <= M -> L r p g q -> L (RRep gr 0 (Some M) r) p g q.
Proof. intros HM H. exists 1. split; [lia|]. split; [lia|]. exists g, []. split; [symmetry; apply app_nil_r|]. split; [exact H|reflexivity]. Qed.
Lemma L_list {A} (f : A -> str) gr r : forall l p q, (forall x, In x l -> forall p q, L r p (f x) q) -> L (RRep gr 0 None r) p (flat_map f l) q.
Proof.
  intros l p q H. exists (length l). split; [lia|]. split; [exact I|]. revert p. induction l as [|x l IH]; intros p; cbn [length Lrep flat_map]; [reflexivity|].
  exists (f x), (flat_map f l). split; [reflexivity|]. split; [apply H; left; reflexivity|]. apply IH. intros y Hy. apply H. right. exact Hy.
Qed.
Lemma Forall_cm cs (P : N -> Prop) g : (forall c, P c -> cmatch cs c = true) -> Forall P g -> Forall (fun c => cmatch cs c = true) g.
Proof. intros H. apply Forall_impl. exact H. Qed.
Lemma negated ic l c : cmatch (CS true ic l) c = negb (cmatch (CS false ic l) c).
Proof. unfold cmatch. cbn [cs_neg cs_icase cs_items]. destruct ic, (existsb _ _); try reflexivity; destruct (existsb _ _); reflexivity. Qed.
Ltac in_list H := match type of H with context [In _ ?l] => let v := eval vm_compute in l in change l with v in H; cbn [In] in H end.
Ltac chars := cm_unfold; unfold fold_icase, in_range; repeat match goal with |- context [if ?b then _ else _] => destruct b eqn:?; [try lia|] end; lia.

(** ** References to characters *)
Definition entity_re : regex := ltac:(let v := eval vm_compute in (match reEntityHere with RSeq _ r => r | r => r end) in exact v).
Lemma reEntity_shape : reEntityHere = RSeq RBol entity_re.
Proof. vm_compute. reflexivity. Qed.
Lemma digits_all (f : N -> option N) base (P : N -> Prop) : (forall c d, f c = Some d -> P c) -> forall ds acc n, number_of f base acc ds = Some n -> Forall P ds.
Proof. intros H. induction ds as [|c ds IH]; intros acc n Hn; cbn [number_of] in Hn; [constructor|]. destruct (f c) as [d|] eqn:E; [|discriminate]. constructor; [exact (H c d E)|exact (IH _ _ Hn)]. Qed.
Lemma dec_digits ds acc n : number_of dec_digit 10 acc ds = Some n -> Forall (fun c => (48 <= c <= 57)%N) ds.
Proof. apply digits_all. intros c d H. unfold dec_digit, in_range in H. destruct (N.leb_spec 48 c), (N.leb_spec c 57); cbn [andb] in H; try discriminate. lia. Qed.
Lemma hex_digits ds acc n : number_of hex_digit_val 16 acc ds = Some n -> Forall (fun c => (48 <= c <= 57)%N \/ (65 <= c <= 70)%N \/ (97 <= c <= 102)%N) ds.
Proof. apply digits_all. intros c d H. unfold hex_digit_val, in_range in H. destruct (N.leb_spec 48 c), (N.leb_spec c 57), (N.leb_spec 97 c), (N.leb_spec c 102), (N.leb_spec 65 c), (N.leb_spec c 70); cbn [andb] in H; try discriminate; lia. Qed.
Lemma entity_dec ds n q : 1 <= length ds <= 7 -> number_of dec_digit 10 0 ds = Some n -> L entity_re None (u "&#" ++ ds ++ u ";") q.
Proof.
  intros Hl Hd. apply L_chr_seq; [reflexivity|]. intros p. change (L (match entity_re with RSeq _ r => r | r => r end) p ((35%N :: ds) ++ [59%N]) q). apply L_seq; [|intros p'; apply L_chr; reflexivity].
  right. left. apply L_chr_seq; [reflexivity|]. intros p'. apply L_many; [lia|lia|]. eapply Forall_cm; [|exact (dec_digits _ _ _ Hd)]. intros c Hc. cbv beta in Hc. chars.
Qed.
Lemma entity_hex x ds n q : (x = 120 \/ x = 88)%N -> 1 <= length ds <= 6 -> number_of hex_digit_val 16 0 ds = Some n -> L entity_re None (u "&#" ++ [x] ++ ds ++ u ";") q.
Proof.
  intros Hx Hl Hd. apply L_chr_seq; [reflexivity|]. intros p. change (L (match entity_re with RSeq _ r => r | r => r end) p ((35%N :: x :: ds) ++ [59%N]) q). apply L_seq; [|intros p'; apply L_chr; reflexivity].
  left. apply L_chr_seq; [reflexivity|]. intros p'. apply L_chr_seq; [destruct Hx as [-> | ->]; reflexivity|]. intros p2. apply L_many; [lia|lia|]. eapply Forall_cm; [|exact (hex_digits _ _ _ Hd)]. intros c Hc. cbv beta in Hc. chars.
Qed.
Lemma entity_name c r q : ascii_letter c -> 1 <= length r <= 31 -> Forall word_char r -> L entity_re None (u "&" ++ (c :: r) ++ u ";") q.
Proof.
  intros Hc Hl Hr. apply L_chr_seq; [reflexivity|]. intros p. change (L (match entity_re with RSeq _ r => r | r => r end) p ((c :: r) ++ [59%N]) q). apply L_seq; [|intros p'; apply L_chr; reflexivity].
  right. right. apply L_chr_seq; [unfold ascii_letter in Hc; chars|]. intros p'. apply L_many; [lia|lia|]. eapply Forall_cm; [|exact Hr]. intros x Hx. unfold word_char in Hx. chars.
Qed.
Lemma match_entity s g q : skipn (ip_pos s) (ip_subject s) = g ++ q -> L entity_re None g q -> ip_match reEntityHere s = Some (g, ip_adv (length g) s).
Proof.
  intros E H. apply (ip_match_only _ entity_re s g q reEntity_shape); [reflexivity|exact E|exact H|]. intros g' q' Eq H'. eapply (closes_only 59); [|exact H|exact H'|exact Eq]. vm_compute. reflexivity.
Qed.

(** ** Addresses *)
Definition auto_re : regex := ltac:(let v := eval vm_compute in (match reAutolink with RSeq _ r => r | r => r end) in exact v).
Lemma reAutolink_shape : reAutolink = RSeq RBol auto_re.
Proof. vm_compute. reflexivity. Qed.
Definition mail_re : regex := ltac:(let v := eval vm_compute in (match reEmailAutolink with RSeq _ r => r | r => r end) in exact v).
Lemma reEmail_shape : reEmailAutolink = RSeq RBol mail_re.
Proof. vm_compute. reflexivity. Qed.
Lemma dest_facts c : dest_char c -> (33 <= c < 128)%N /\ uri_safe c = true /\ ~ In c [34; 38; 39; 60; 62; 91; 92; 93]%N /\ re_test reWhitespaceChar [c] = false.
Proof.
  intros [H|H].
  - destruct (url_facts c H) as (H1 & H2 & H3 & H4). pose proof (url_small c (url_b_spec c H)) as Hs. split.
    + destruct H as [H|H]; [unfold word_char in H; lia|]. in_list H. lia.
    + split; [exact H1|]. split; [|exact H2]. intros X. apply H4. cbn [In] in *. tauto.
  - in_list H. repeat (destruct H as [<-|H]; [split; [lia|]; split; [reflexivity|]; split; [cbn [In]; lia|vm_compute; reflexivity]|]). destruct H.
Qed.
Lemma address_L scheme rest q : (exists c r, scheme = c :: r /\ ascii_letter c /\ 1 <= length r <= 31 /\ Forall scheme_char r) -> Forall dest_char rest ->
  L auto_re None (u "<" ++ scheme ++ u ":" ++ rest ++ u ">") q.
Proof.
  intros (c & r & -> & Hc & Hl & Hr) Hd. apply L_chr_seq; [reflexivity|]. intros p. apply L_chr_seq; [unfold ascii_letter in Hc; chars|]. intros p1.
  apply L_seq; [apply L_many; [lia|lia|]; eapply Forall_cm; [|exact Hr]; intros x [Hx|Hx]; [unfold word_char in Hx; chars|in_list Hx; chars]|]. intros p2.
  apply L_chr_seq; [reflexivity|]. intros p3. apply L_seq; [apply L_many; [lia|exact I|]; eapply Forall_cm; [|exact Hd]; intros x Hx|intros p4; apply L_chr; reflexivity].
  destruct (dest_facts x Hx) as (F1 & _ & F3 & _). cbn [In] in F3. chars.
Qed.
Lemma label_re_L c l p q : word_char c -> length l <= 62 -> Forall word_char l ->
  L (RRep true 0 (Some 1) (RSeq (RRep true 0 (Some 61) (RChr (CS false false [CRange 97 122; CRange 65 90; CRange 48 57; CRange 45 45]))) (RChr (CS false false [CRange 97 122; CRange 65 90; CRange 48 57])))) p l q.
Proof.
  intros _ Hl Hw. assert (Hc : l = [] \/ exists m x, l = m ++ [x]) by (destruct l as [|y l0]; [left; reflexivity|right; destruct (exists_last (l := y :: l0) ltac:(discriminate)) as (m & x & E); eauto]). destruct Hc as [->|(m & x & ->)]; [apply L_opt_none|]. rewrite app_length in Hl. cbn [length] in Hl. apply Forall_app in Hw as [H1 H2]. apply Forall_inv in H2.
  apply L_opt_one; [lia|]. apply L_seq; [apply L_many; [lia|lia|]; eapply Forall_cm; [|exact H1]; intros y Hy; unfold word_char in Hy; chars|]. intros p'. apply L_chr. unfold word_char in H2. chars.
Qed.
Lemma mail_L name domain q : name <> [] -> Forall (fun c => word_char c \/ In c (u ".+-_")) name -> domain <> [] -> Forall SpecPieces.label_ok domain ->
  L mail_re None (u "<" ++ name ++ u "@" ++ domain_text domain ++ u ">") q.
Proof.
  intros Hn Hf Hd Hl. destruct domain as [|l ls]; [congruence|]. clear Hd. pose proof (Forall_inv Hl) as (L1 & L2 & L3). apply Forall_inv_tail in Hl. destruct l as [|c l]; [congruence|]. cbn [length] in L2.
  apply L_chr_seq; [reflexivity|]. intros p.
  replace (name ++ u "@" ++ domain_text ((c :: l) :: ls) ++ u ">") with ((name ++ 64%N :: c :: l ++ flat_map (fun x => u "." ++ x) ls) ++ [62%N]) by (cbn [domain_text]; rewrite <- !app_assoc; cbn [app u]; rewrite <- !app_assoc; reflexivity).
  apply L_seq; [|intros p'; apply L_chr; reflexivity].
  change (L (match mail_re with RSeq _ (RSeq (RGrp _ r) _) => r | r => r end) p (name ++ 64%N :: c :: l ++ flat_map (fun x => u "." ++ x) ls) ([62%N] ++ q)).
  apply L_seq.
  { apply L_many; [destruct name; [congruence|cbn; lia]|exact I|]. eapply Forall_cm; [|exact Hf]. intros x [Hx|Hx]; [unfold word_char in Hx; chars|in_list Hx; chars]. }
  intros p1. apply L_chr_seq; [reflexivity|]. intros p2. apply L_chr_seq; [apply Forall_inv in L3; unfold word_char in L3; chars|]. intros p3. apply L_seq.
  { apply (label_re_L c); [exact (Forall_inv L3)|lia|exact (Forall_inv_tail L3)]. }
  intros p4. apply L_list. intros x Hx p5 q5. rewrite Forall_forall in Hl. destruct (Hl x Hx) as (M1 & M2 & M3). destruct x as [|d x]; [congruence|]. cbn [length] in M2.
  apply L_chr_seq; [reflexivity|]. intros p6. apply L_chr_seq; [apply Forall_inv in M3; unfold word_char in M3; chars|]. intros p7. apply (label_re_L d); [exact (Forall_inv M3)|lia|exact (Forall_inv_tail M3)].
Qed.
Lemma match_address s g q : skipn (ip_pos s) (ip_subject s) = g ++ q -> L auto_re None g q -> ip_match reAutolink s = Some (g, ip_adv (length g) s).
Proof.
  intros E H. apply (ip_match_only _ auto_re s g q reAutolink_shape); [reflexivity|exact E|exact H|]. intros g' q' Eq H'. eapply (closes_only 62); [|exact H|exact H'|exact Eq]. vm_compute. reflexivity.
Qed.
Lemma match_mail s g q : skipn (ip_pos s) (ip_subject s) = g ++ q -> L mail_re None g q -> ip_match reEmailAutolink s = Some (g, ip_adv (length g) s).
Proof.
  intros E H. apply (ip_match_only _ mail_re s g q reEmail_shape); [reflexivity|exact E|exact H|]. intros g' q' Eq H'. eapply (closes_only 62); [|exact H|exact H'|exact Eq]. vm_compute. reflexivity.
Qed.
(** What is not an address *)
Lemma no_mail s a y q : skipn (ip_pos s) (ip_subject s) = 60%N :: a ++ y :: q -> In y [32; 58; 62]%N -> ~ In 64%N a -> ip_match reEmailAutolink s = None.
Proof.
  intros E Hy Ha. apply (ip_match_none _ mail_re s (60%N :: a ++ y :: q) reEmail_shape); [reflexivity|exact E|]. intros g q' Eq H. unfold mail_re in H. cbn [L] in H.
  destruct H as (g1 & g2 & -> & (c & -> & _) & g3 & g4 & -> & H & _). destruct H as (g5 & g6 & -> & (n & _ & _ & Hn) & g7 & g8 & -> & (d & -> & Hd) & _). apply Lrep_chr in Hn as [_ Hn].
  apply chr_plain in Hd as ->. rewrite <- ?app_assoc in Eq. cbn [app] in Eq. injection Eq as _ Eq. rewrite <- ?app_assoc in Eq. cbn [app] in Eq. symmetry in Eq. eapply (cross 64 y); [exact Eq| |exact Ha|cbn [In] in Hy; lia].
  intros X. rewrite Forall_forall in Hn. apply Hn in X. cbn [In] in Hy. destruct Hy as [<-|[<-|[<-|[]]]]; vm_compute in X; discriminate.
Qed.
Lemma no_address s a y q : skipn (ip_pos s) (ip_subject s) = 60%N :: a ++ y :: q -> In y [32; 47; 62]%N -> ~ In 58%N a -> ip_match reAutolink s = None.
Proof.
  intros E Hy Ha. apply (ip_match_none _ auto_re s (60%N :: a ++ y :: q) reAutolink_shape); [reflexivity|exact E|]. intros g q' Eq H. unfold auto_re in H. cbn [L] in H.
  destruct H as (g1 & g2 & -> & (c & -> & _) & g3 & g4 & -> & (x & -> & Hx) & g5 & g6 & -> & (n & _ & _ & Hn) & g7 & g8 & -> & (d & -> & Hd) & _). apply Lrep_chr in Hn as [_ Hn].
  apply chr_ic in Hd as ->; [|lia]. rewrite <- ?app_assoc in Eq. cbn [app] in Eq. injection Eq as _ Eq. symmetry in Eq. rewrite <- ?app_assoc in Eq. cbn [app] in Eq. eapply (cross 58 y (x :: g5)); [exact Eq| |exact Ha|cbn [In] in Hy; lia].
  intros [X|X]; [|rewrite Forall_forall in Hn; apply Hn in X; rename X into Hx']; cbn [In] in Hy; destruct Hy as [<-|[<-|[<-|[]]]]; try subst x; first [vm_compute in Hx'; discriminate|vm_compute in Hx; discriminate].
Qed.

(** ** Tags *)
Definition open_re : regex := ltac:(let v := eval vm_compute in (match reHtmlTag with RSeq _ (RAlt a _) => a | r => r end) in exact v).
Definition close_re : regex := ltac:(let v := eval vm_compute in (match reHtmlTag with RSeq _ (RAlt _ (RAlt b _)) => b | r => r end) in exact v).
Definition other_re : regex := ltac:(let v := eval vm_compute in (match reHtmlTag with RSeq _ (RAlt _ (RAlt _ c)) => c | r => r end) in exact v).
Lemma reHtmlTag_shape : reHtmlTag = RSeq RBol (RAlt open_re (RAlt close_re other_re)).
Proof. vm_compute. reflexivity. Qed.
Lemma space_cm ic : cmatch (CS false ic [CSpace]) 32 = true.
Proof. destruct ic; vm_compute; reflexivity. Qed.
Lemma spaces_cm ic k : Forall (fun c => cmatch (CS false ic [CSpace]) c = true) (repeat 32%N k).
Proof. apply Forall_forall. intros c Hc. apply repeat_spec in Hc as ->. apply space_cm. Qed.
Definition attr_re : regex := ltac:(let v := eval vm_compute in (match open_re with RSeq _ (RSeq _ (RSeq _ (RSeq (RRep _ _ _ r) _))) => r | r => r end) in exact v).
Definition value_re : regex := ltac:(let v := eval vm_compute in (match attr_re with RSeq _ (RSeq _ (RSeq _ (RRep _ _ _ (RSeq _ (RSeq _ (RSeq _ r)))))) => r | r => r end) in exact v).
Lemma value_L v p q : value_ok v -> L value_re p (value_text v) q.
Proof.
  destruct v as [w|m w]; cbn [value_ok value_text].
  - intros [Hne Hw]. left. apply L_many; [destruct w; [congruence|cbn; lia]|exact I|]. eapply Forall_cm; [|exact Hw]. intros c (H1 & _ & _ & H). in_list H. chars.
  - intros (Hm & Hn & _ & _). right. destruct Hm as [-> | ->]; [right|left]; (apply L_chr_seq; [reflexivity|]; intros p1; apply L_seq; [apply L_many; [lia|exact I|]|intros p2; apply L_chr; reflexivity]);
    apply Forall_forall; intros c Hc; rewrite negated, icase_nonletter by lia; apply negb_true_iff, N.eqb_neq; intros ->; contradiction.
Qed.
Lemma attr_L a p q : attr_ok a -> L attr_re p (attr_written a) q.
Proof.
  intros (Hg & (c & r & En & Hc & Hr) & Hv). unfold attr_written. rewrite En. apply L_seq; [apply L_many; [rewrite repeat_length; lia|exact I|apply spaces_cm]|]. intros p1. cbn [app].
  apply L_chr_seq; [destruct Hc as [Hc|Hc]; [unfold ascii_letter in Hc; chars|in_list Hc; chars]|]. intros p2. apply L_seq; [apply L_many; [lia|exact I|]; eapply Forall_cm; [|exact Hr]; intros x [Hx|Hx]; [unfold word_char in Hx; chars|in_list Hx; chars]|].
  intros p3. destruct (at_value a) as [[[i j] v]|]; [|apply L_opt_none]. apply L_opt_one; [lia|]. apply L_seq; [apply L_many; [lia|exact I|apply spaces_cm]|]. intros p4. apply L_chr_seq; [reflexivity|]. intros p5.
  apply L_seq; [apply L_many; [lia|exact I|apply spaces_cm]|]. intros p6. apply value_L, Hv.
Qed.
Lemma open_L name attrs gap closed q : tag_name name -> Forall attr_ok attrs -> L open_re None (piece_text (Opening name attrs gap closed)) q.
Proof.
  intros (c & r & -> & Hc & Hr) Ha. cbn [piece_text]. apply L_chr_seq; [reflexivity|]. intros p0. cbn [app]. apply L_chr_seq; [unfold ascii_letter in Hc; chars|]. intros p1.
  apply L_seq; [apply L_many; [lia|exact I|]; eapply Forall_cm; [|exact Hr]; intros x [Hx|Hx]; [unfold word_char in Hx; chars|subst x; reflexivity]|]. intros p2.
  apply L_seq; [apply L_list; intros x Hx p q'; apply attr_L; rewrite Forall_forall in Ha; apply Ha, Hx|]. intros p3. apply L_seq; [apply L_many; [lia|exact I|apply spaces_cm]|]. intros p4.
  apply L_seq; [destruct closed; [apply L_opt_one; [lia|apply L_chr; reflexivity]|apply L_opt_none]|]. intros p5. apply L_chr. reflexivity.
Qed.
Lemma close_L name gap q : tag_name name -> L close_re None (piece_text (Closing name gap)) q.
Proof.
  intros (c & r & -> & Hc & Hr). cbn [piece_text]. apply L_chr_seq; [reflexivity|]. intros p0. cbn [app]. apply L_chr_seq; [reflexivity|]. intros p1. apply L_chr_seq; [unfold ascii_letter in Hc; chars|]. intros p2.
  apply L_seq; [apply L_many; [lia|exact I|]; eapply Forall_cm; [|exact Hr]; intros x [Hx|Hx]; [unfold word_char in Hx; chars|subst x; reflexivity]|]. intros p3.
  apply L_seq; [apply L_many; [lia|exact I|apply spaces_cm]|]. intros p4. apply L_chr. reflexivity.
Qed.
(** the character behind the angle bracket *)
Definition second (r : regex) (c : N) : bool := match r with RSeq (RChr _) b => begins b c | _ => true end.
Fixpoint seconds (r : regex) (c : N) : bool := match r with RAlt a b => seconds a c || seconds b c | _ => second r c || match r with RSeq (RChr _) b => nullable b | _ => true end end.
Lemma seconds_L r : forall p g q x c t, L r p g q -> g ++ q = x :: c :: t -> seconds r c = true.
Proof.
  induction r as [|cs|a IHa b IHb|a IHa b IHb|gr mn mx a IHa|n a IHa| | | |neg a IHa]; intros p g q x c t H E; try reflexivity.
  - destruct a as [|cs| | | | | | | |]; try reflexivity. cbn [seconds second]. cbn [L] in H. destruct H as (g1 & g2 & -> & (y & -> & _) & H). cbn [app] in E. injection E as -> E.
    destruct (begins b c) eqn:Eb; [reflexivity|]. pose proof (begins_L b _ g2 q c t H E Eb) as ->. destruct (nullable b) eqn:En; [reflexivity|]. destruct (L_nonempty b En _ _ _ H eq_refl).
  - cbn [seconds]. cbn [L] in H. destruct H as [H|H]; [erewrite IHa by eassumption; reflexivity|erewrite IHb by eassumption; apply orb_true_r].
Qed.
Lemma match_open s name attrs gap closed q : tag_name name -> Forall attr_ok attrs -> skipn (ip_pos s) (ip_subject s) = piece_text (Opening name attrs gap closed) ++ q ->
  ip_match reHtmlTag s = Some (piece_text (Opening name attrs gap closed), ip_adv (length (piece_text (Opening name attrs gap closed))) s).
Proof.
  intros Hn Ha E. pose proof (open_L name attrs gap closed q Hn Ha) as H. apply (ip_match_only _ _ s (piece_text (Opening name attrs gap closed)) q reHtmlTag_shape); [vm_compute; reflexivity|exact E|left; exact H|].
  destruct Hn as (c & r & -> & Hc & _). intros g' q' Eq [H'|[H'|H']].
  - eapply tag_only; [|exact H|exact H'|exact Eq]. vm_compute. reflexivity.
  - exfalso. cbn [piece_text app u] in Eq. assert (X : seconds close_re c = true) by (eapply seconds_L; [exact H'|symmetry; exact Eq]). revert X. cbn [seconds second close_re nullable andb]. rewrite orb_false_r. firsts_calc. unfold ascii_letter in Hc. intros X. destruct ((65 <=? c)%N && (c <=? 90)%N) eqn:E1; [lia|]. destruct (N.eqb c 304 || N.eqb c 305) eqn:E2; [lia|]. destruct (N.eqb c 383) eqn:E3; [lia|]. destruct (N.eqb c 8490) eqn:E4; lia.
  - exfalso. cbn [piece_text app u] in Eq. assert (X : seconds other_re c = true) by (eapply seconds_L; [exact H'|symmetry; exact Eq]). 
    assert (B : below 128 (fun c => negb (seconds other_re c) || N.ltb c 65) = true) by (vm_compute; reflexivity). pose proof (below_spec _ _ B c ltac:(unfold ascii_letter in Hc; lia)) as G. cbv beta in G. rewrite X in G. unfold ascii_letter in Hc. cbn [negb orb] in G. lia.
Qed.
Lemma match_close s name gap q : tag_name name -> skipn (ip_pos s) (ip_subject s) = piece_text (Closing name gap) ++ q ->
  ip_match reHtmlTag s = Some (piece_text (Closing name gap), ip_adv (length (piece_text (Closing name gap))) s).
Proof.
  intros Hn E. pose proof (close_L name gap q Hn) as H. apply (ip_match_only _ _ s (piece_text (Closing name gap)) q reHtmlTag_shape); [vm_compute; reflexivity|exact E|right; left; exact H|].
  intros g' q' Eq [H'|[H'|H']].
  - exfalso. cbn [piece_text app u] in Eq. assert (X : seconds open_re 47 = true) by (eapply seconds_L; [exact H'|symmetry; exact Eq]). vm_compute in X. discriminate.
  - eapply (closes_only 62); [|exact H|exact H'|exact Eq]. vm_compute. reflexivity.
  - exfalso. cbn [piece_text app u] in Eq. assert (X : seconds other_re 47 = true) by (eapply seconds_L; [exact H'|symmetry; exact Eq]). vm_compute in X. discriminate.
Qed.
