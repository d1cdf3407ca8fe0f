(** * Marked phrases inside marked phrases: C54 *)
From Verif Require Import Base Regex Common NormRef Node Inlines Blocks Html Main RegexFacts StrFacts Spec SpecTree SpecSame SpecLines SpecParas SpecRefs SpecPieces SpecNest
  TreeFacts CommonFacts StrProp HtmlFacts EmphFacts InlineFacts DocFacts TextFacts WordFacts RenderFacts FlankFacts AngleFacts RefFacts RefLine RefInline ParaInline PieceRegex PieceMatch PieceLink PieceFacts.
From Coq Require Import ZifyBool ZifyNat ZifyN.

Section Opts.
Variable o : hopts.
Hypotheses (Ho : ho_sourcepos o = false) (Hs : ho_safe o = false).

(** The children and the delimiters that the inline loop leaves for a phrase *)
Inductive laid : list N -> phrase -> list (nat * tree) -> list delim -> Prop :=
| laid_end env : laid env End [] []
| laid_then env p w r K1 K2 K D : shown o (map snd K1) (piece_html p) -> shown o (map snd K2) (html_text w) -> laid env r K D -> laid env (Then p w r) (K1 ++ K2 ++ K) D
| laid_marked env c n v inner w r i j oc co K1 K2 D1 K3 K4 D :
    c = 42%N \/ c = 95%N -> n = 1 \/ n = 2 -> (oc = true -> ~ In c env) ->
    shown o (map snd K1) (html_text v) -> laid (c :: env) inner K2 D1 -> shown o (map snd K3) (html_text w) -> laid env r K4 D ->
    laid env (Marked c n v inner w r) ((i, text_node (repeat c n)) :: (K1 ++ K2) ++ (j, text_node (repeat c n)) :: K3 ++ K4) (DL c n n i true oc :: D1 ++ DL c n n j co true :: D).

(** ** Pairing the delimiters *)
Lemma shown_mark n K s : shown o K s -> shown o [T (new_node (if Nat.eqb n 1 then emph else strong) None) K] (mark_tag n s).
Proof.
  intros H anc st Hd. cbn [flat_map events]. rewrite app_nil_r. set (d := new_node _ None). assert (Hc : is_container (n_t d) = true) by (unfold d; cbn [new_node n_t]; destruct (Nat.eqb n 1); reflexivity). rewrite Hc. cbn [html_events].
  assert (En : forall e s, html_node o d anc e s = Ok (if Nat.eqb n 1 then h_tag0 (if e then u "em" else u "/em") s else h_tag0 (if e then u "strong" else u "/strong") s)) by (intros e x; unfold d, html_node; cbn [new_node n_t]; destruct (Nat.eqb n 1); reflexivity).
  rewrite En. cbn [bind]. rewrite html_events_app. remember (if Nat.eqb n 1 then h_tag0 (u "em") st else h_tag0 (u "strong") st) as s1 eqn:E1.
  assert (B1 : h_buf s1 = h_buf st ++ (if Nat.eqb n 1 then u "<em>" else u "<strong>") /\ h_dis s1 = 0%Z).
  { subst s1. unfold h_tag0, h_tag. rewrite Hd. change (Z.ltb 0 0) with false. cbv iota. destruct (Nat.eqb n 1); (split; [unfold h_lit; cbn [h_buf flat_map]; rewrite <- ?app_assoc; reflexivity|first [exact Hd | reflexivity]]). }
  destruct B1 as [B1 B2]. destruct (H (d :: anc) s1 B2) as (l & ->). cbn [bind html_events]. rewrite En. cbn [bind]. rewrite B1.
  unfold h_tag0, h_tag. cbn [h_dis]. change (Z.ltb 0 0) with false. cbv iota. unfold mark_tag. destruct (Nat.eqb n 1); (eexists; unfold h_lit; cbn [h_buf flat_map h_dis]; rewrite <- !app_assoc; reflexivity).
Qed.
Definition ob_ok (ob : obottom) (ds : list delim) : Prop := Forall (fun d => ob_get (d_cc d) ob <> Some (d_node d)) ds.
Lemma find_none cl ob l : Forall (fun d => d_cc d <> d_cc cl) l -> forall odd, exists odd', find_opener cl None ob l odd = (None, odd').
Proof.
  induction l as [|d l IH]; intros H odd; cbn [find_opener]; [exists odd; reflexivity|]. destruct (_ || _); [exists odd; reflexivity|]. rewrite (proj2 (N.eqb_neq _ _) (Forall_inv H)). cbn [andb]. apply IH, (Forall_inv_tail H).
Qed.
Lemma ob_get_set c v ob c' : In c [42; 95]%N -> In c' [42; 95]%N -> ob_get c' (ob_set c v ob) = if N.eqb c' c then v else ob_get c' ob.
Proof. intros [<-|[<-|[]]] [<-|[<-|[]]]; reflexivity. Qed.
Definition emph_delims (ds : list delim) : Prop := Forall (fun d => In (d_cc d) [42; 95]%N) ds.
Lemma laid_delims env l K D : laid env l K D -> emph_delims D /\ Forall (fun d => In (d_node d) (map fst K)) D.
Proof.
  induction 1 as [|env p w r K1 K2 K D _ _ _ IH|env c n v inner w r i j oc co K1 K2 D1 K3 K4 D Hc Hn Hoc _ _ IH1 _ _ IH2]; [split; constructor|..].
  - destruct IH as [I1 I2]. split; [exact I1|]. eapply Forall_impl; [|exact I2]. cbv beta. intros d Hd. rewrite !map_app, !in_app_iff. auto.
  - destruct IH1 as [I1 I2], IH2 as [J1 J2]. assert (Hc' : In c [42; 95]%N) by (cbn; lia). split.
    + constructor; [exact Hc'|]. apply Forall_app. split; [exact I1|]. constructor; [exact Hc'|exact J1].
    + cbn [map fst]. constructor; [left; reflexivity|]. apply Forall_app. split; [|constructor].
      * eapply Forall_impl; [|exact I2]. cbv beta. intros d Hd. right. rewrite !map_app, !in_app_iff. auto.
      * right. rewrite !map_app, !in_app_iff. right. left. reflexivity.
      * eapply Forall_impl; [|exact J2]. cbv beta. intros d Hd. right. rewrite map_app, !in_app_iff. right. right. rewrite map_app, in_app_iff. auto.
Qed.
Lemma NoDup_app3 (A B C : list nat) : NoDup (A ++ B ++ C) -> forall x, In x B -> ~ In x A /\ ~ In x C.
Proof.
  intros H x Hx. apply in_split in Hx as (b1 & b2 & ->). rewrite <- app_assoc in H. cbn [app] in H. rewrite app_assoc in H. apply NoDup_remove_2 in H. rewrite !in_app_iff in H. tauto.
Qed.
Theorem pair_all env l K D : laid env l K D -> forall lft rgt ob odd A B next fu,
  Forall (fun d => In (d_cc d) env) lft -> NoDup (ids (A ++ K ++ B)) -> Forall (fun i => i < next) (ids (A ++ K ++ B)) ->
  emph_delims (lft ++ rgt) -> ob_ok ob (lft ++ D ++ rgt) -> NoDup (map d_node (lft ++ D ++ rgt)) ->
  exists ob' odd' R next', pe_loop (length D + fu) None (PE lft (D ++ rgt) ob odd (A ++ K ++ B) next) = pe_loop fu None (PE lft rgt ob' odd' (A ++ R ++ B) next') /\
    shown o (map snd R) (phrase_html l) /\ NoDup (ids (A ++ R ++ B)) /\ Forall (fun i => i < next') (ids (A ++ R ++ B)) /\ ob_ok ob' (lft ++ rgt).
Proof.
  induction 1 as [env|env p w r K1 K2 K D S1 S2 _ IH|env c n v inner w r i j oc co K1 K2 D1 K3 K4 D Hc Hn Hoc S1 L1 IH1 S3 L2 IH2]; intros lft rgt ob odd A B next fu Hl Hnd Hlt He Hob Hdn.
  - exists ob, odd, [], next. split; [reflexivity|]. split; [apply shown_nil|]. auto.
  - assert (Ea : forall X : list (nat * tree), A ++ (K1 ++ K2 ++ X) ++ B = (A ++ K1 ++ K2) ++ X ++ B) by (intros X; rewrite <- !app_assoc; reflexivity).
    rewrite Ea in *. destruct (IH lft rgt ob odd (A ++ K1 ++ K2) B next fu Hl Hnd Hlt He Hob Hdn) as (ob' & odd' & R & next' & G & Sh & N1 & N2 & N3).
    exists ob', odd', (K1 ++ K2 ++ R), next'. rewrite Ea. split; [exact G|]. split; [|auto]. rewrite !map_app. apply shown_app; [exact S1|]. apply shown_app; assumption.
  - assert (Hc' : In c [42; 95]%N) by (cbn; lia). set (op := DL c n n i true oc) in *. set (cl := DL c n n j co true) in *. set (no := text_node (repeat c n)) in *.
    set (rgt1 := cl :: D ++ rgt). rewrite <- !app_comm_cons in *. rewrite <- !app_assoc in *. rewrite <- !app_comm_cons in *.
    assert (G1 : exists ob1 odd1, (forall f, pe_loop (S f) None (PE lft (op :: D1 ++ rgt1) ob odd (A ++ (i, no) :: K1 ++ K2 ++ (j, no) :: (K3 ++ K4) ++ B) next) = pe_loop f None (PE (op :: lft) (D1 ++ rgt1) ob1 odd1 (A ++ (i, no) :: K1 ++ K2 ++ (j, no) :: (K3 ++ K4) ++ B) next)) /\ ob_ok ob1 (lft ++ op :: D1 ++ rgt1)).
    { assert (C : N.eqb c 42 || N.eqb c 95 = true) by lia. destruct oc.
      - destruct (find_none op (ob_get c ob) lft) with (odd := odd) as (odd1 & Ef). { eapply Forall_impl; [|exact Hl]. cbv beta. intros d Hd X. cbn [op d_cc] in X. apply (Hoc eq_refl). rewrite <- X. exact Hd. }
        exists (if odd1 then ob else ob_set c (hd_id lft) ob), odd1. split.
        + intros f. cbn [pe_loop pe_cur]. unfold pe_step at 1. change (d_can_close op) with true. cbn [negb pe_left pe_ob pe_odd pe_kids pe_next]. change (d_cc op) with c. rewrite Ef, C. change (d_can_open op) with true. destruct odd1; reflexivity.
        + destruct odd1; [exact Hob|]. apply Forall_forall. intros d Hd. rewrite ob_get_set; [|exact Hc'|].
          * destruct (N.eqb_spec (d_cc d) c) as [Ed|Ed].
            -- destruct lft as [|z lft]; [discriminate|]. cbn [hd_id]. intros X. injection X as X.
               assert (Hz : d_cc z <> c) by (intros Y; apply (Hoc eq_refl); rewrite <- Y; apply (Forall_inv Hl)).
               cbn [app] in Hd. destruct Hd as [<-|Hd]; [congruence|]. cbn [app map] in Hdn. apply NoDup_cons_iff in Hdn as [Hdn _]. apply Hdn. rewrite X. apply in_map, Hd.
            -- unfold ob_ok in Hob. rewrite Forall_forall in Hob. apply Hob, Hd.
          * unfold emph_delims in He. rewrite Forall_app in He. destruct He as [E1 E2]. destruct (laid_delims _ _ _ _ L1) as [E3 _], (laid_delims _ _ _ _ L2) as [E4 _]. unfold emph_delims in E3, E4. rewrite Forall_forall in E1, E2, E3, E4.
            rewrite in_app_iff in Hd. destruct Hd as [Hd|[<-|Hd]]; [auto|exact Hc'|]. apply in_app_iff in Hd as [Hd|[<-|Hd]]; [auto|exact Hc'|]. apply in_app_iff in Hd as [Hd|Hd]; auto.
      - exists ob, odd. split; [|exact Hob]. intros f. reflexivity. }
    destruct G1 as (ob1 & odd1 & G1 & Hob1).
    assert (Ea : forall X : list (nat * tree), A ++ (i, no) :: K1 ++ X ++ (j, no) :: (K3 ++ K4) ++ B = (A ++ (i, no) :: K1) ++ X ++ ((j, no) :: (K3 ++ K4) ++ B)) by (intros X; rewrite <- !app_assoc; reflexivity).
    rewrite Ea in *.
    assert (P : Permutation.Permutation ((op :: lft) ++ D1 ++ rgt1) (lft ++ op :: D1 ++ rgt1)) by apply Permutation.Permutation_middle.
    destruct (IH1 (op :: lft) rgt1 ob1 odd1 (A ++ (i, no) :: K1) ((j, no) :: (K3 ++ K4) ++ B) next (S (length D + fu))) as (ob2 & odd2 & R2 & next2 & G2 & Sh2 & N1 & N2 & N3).
    { constructor; [left; reflexivity|]. eapply Forall_impl; [|exact Hl]. intros d Hd. right. exact Hd. }
    { exact Hnd. } { exact Hlt. }
    { unfold emph_delims in *. apply Forall_app in He as [E1 E2]. apply Forall_app. split; [constructor; [exact Hc'|exact E1]|]. constructor; [exact Hc'|]. apply Forall_app. split; [apply (laid_delims _ _ _ _ L2)|exact E2]. }
    { unfold ob_ok. eapply Permutation.Permutation_Forall; [apply Permutation.Permutation_sym, P|exact Hob1]. }
    { eapply Permutation.Permutation_NoDup; [apply Permutation.Permutation_map, Permutation.Permutation_sym, P|exact Hdn]. }
    set (e := T (new_node (if Nat.eqb n 1 then emph else strong) None) (map snd (K1 ++ R2))).
    assert (Hij : ~ In i (ids A) /\ ~ In j (ids (K1 ++ R2))).
    { rewrite <- !app_assoc in N1. cbn [app] in N1. rewrite !ids_app in N1. cbn [ids map fst] in N1. fold (ids (K1 ++ R2 ++ (j, no) :: (K3 ++ K4) ++ B)) in N1. split.
      - apply NoDup_remove_2 in N1. rewrite in_app_iff in N1. tauto.
      - apply NoDup_app_remove_l in N1. apply NoDup_cons_iff in N1 as [_ N1]. rewrite app_assoc, ids_app in N1. cbn [ids map fst] in N1. apply NoDup_remove_2 in N1. rewrite in_app_iff in N1. tauto. }
    destruct Hij as [Hi Hj].
    assert (G3 : pe_loop (S (length D + fu)) None (PE (op :: lft) rgt1 ob2 odd2 ((A ++ (i, no) :: K1) ++ R2 ++ ((j, no) :: (K3 ++ K4) ++ B)) next2) = pe_loop (length D + fu) None (PE lft (D ++ rgt) ob2 false ((A ++ [(next2, e)] ++ K3) ++ K4 ++ B) (S next2))).
    { cbn [pe_loop pe_cur]. unfold rgt1. unfold pe_step at 1. change (d_can_close cl) with true. cbn [negb pe_left pe_ob pe_odd pe_kids pe_next find_opener]. change (d_cc cl) with c. change (d_node op) with i. change (id_eqb (Some i) None) with false. cbn [orb].
      assert (Eob : id_eqb (Some i) (ob_get c ob2) = false). { apply id_eqb_neq. intros X. apply Forall_inv in N3. apply N3. symmetry. exact X. }
      rewrite Eob. change (d_cc op) with c. rewrite N.eqb_refl. change (d_can_open op) with true. change (d_orig cl) with n. change (d_orig op) with n.
      assert (Hodd : (d_can_open cl || d_can_close op) && negb (Nat.eqb (n mod 3) 0) && Nat.eqb ((n + n) mod 3) 0 = false) by (destruct Hn as [->| ->]; destruct (d_can_open cl || d_can_close op); reflexivity).
      rewrite Hodd. cbn [andb negb]. assert (C : N.eqb c 42 || N.eqb c 95 = true) by lia. rewrite C. change (d_num cl) with n. change (d_num op) with n. change (d_node cl) with j.
      replace (if Nat.leb 2 n && Nat.leb 2 n then 2 else 1) with n by (destruct Hn as [->| ->]; reflexivity). cbn [set_d_num]. change (d_num (set_d_num (n - n) op)) with (n - n). change (d_num (set_d_num (n - n) cl)) with (n - n). rewrite Nat.sub_diag. cbn [Nat.eqb].
      assert (Hw : wrap_emph n i j next2 true true ((A ++ (i, no) :: K1) ++ R2 ++ (j, no) :: (K3 ++ K4) ++ B) = Ok ((A ++ [(next2, e)] ++ K3) ++ K4 ++ B)).
      { unfold wrap_emph. rewrite <- app_assoc. cbn [app]. rewrite split_at by exact Hi. rewrite app_assoc, split_at by exact Hj. cbn [cut_literal no text_node]. unfold no, text_node, cut_literal. cbn [t_data n_literal set_n_literal bind]. rewrite <- !app_assoc. reflexivity. }
      change (d_node op) with i. rewrite Hw. reflexivity. }
    assert (Hsub : forall x, In x (ids ((A ++ [] ++ K3) ++ K4 ++ B)) -> In x (ids ((A ++ (i, no) :: K1) ++ R2 ++ (j, no) :: (K3 ++ K4) ++ B))).
    { intros x. repeat (rewrite ids_app || rewrite in_app_iff). cbn [ids map fst In]. fold (ids K1) (ids K3) (ids K4) (ids B). repeat (rewrite ids_app || rewrite in_app_iff). intros. cbn [ids map fst In] in *. fold (ids ((K3 ++ K4) ++ B)). repeat (rewrite ids_app || rewrite in_app_iff). tauto. }
    destruct (IH2 lft rgt ob2 false (A ++ [(next2, e)] ++ K3) B (S next2) fu) as (ob3 & odd3 & R4 & next4 & G4 & Sh4 & M1 & M2 & M3).
    { exact Hl. }
    { assert (X : NoDup (ids (A ++ K3 ++ K4 ++ B))). { assert (Y : ids ((A ++ (i, no) :: K1) ++ R2 ++ (j, no) :: (K3 ++ K4) ++ B) = ids A ++ ids ((i, no) :: K1 ++ R2 ++ [(j, no)]) ++ ids (K3 ++ K4 ++ B)) by (rewrite <- !ids_app; f_equal; rewrite <- !app_assoc; cbn [app]; rewrite <- !app_assoc; reflexivity).
        rewrite Y in N1. apply NoDup_app_remove_mid in N1. rewrite <- ids_app in N1. exact N1. }
      rewrite <- !app_assoc. cbn [app]. rewrite ids_app in X |- *. cbn [ids map fst]. apply NoDup_insert; [exact X|]. intros Y. rewrite <- ids_app in Y. rewrite Forall_forall in N2. assert (Z : next2 < next2); [|lia]. apply N2, Hsub. cbn [app]. rewrite <- app_assoc. exact Y. }
    { apply Forall_forall. intros x Hx. rewrite <- !app_assoc in Hx. cbn [app] in Hx. rewrite ids_app, in_app_iff in Hx. cbn [ids map fst In] in Hx. rewrite Forall_forall in N2.
      assert (Z : x = next2 \/ In x (ids ((A ++ [] ++ K3) ++ K4 ++ B))). { cbn [app]. rewrite <- app_assoc, ids_app, in_app_iff. destruct Hx as [Hx|[Hx|Hx]]; auto. }
      destruct Z as [->|Z]; [lia|]. apply Hsub, N2 in Z. lia. }
    { exact He. }
    { unfold ob_ok in *. cbn [app] in N3. apply Forall_inv_tail in N3. apply Forall_app in N3 as [N3 N4]. apply Forall_inv_tail in N4. apply Forall_app. auto. }
    { rewrite map_app in *. cbn [map] in Hdn. rewrite !map_app in Hdn. cbn [map] in Hdn. rewrite map_app in Hdn. change (d_node op :: map d_node D1 ++ d_node cl :: map d_node D ++ map d_node rgt) with ((d_node op :: map d_node D1) ++ d_node cl :: map d_node D ++ map d_node rgt) in Hdn.
      apply NoDup_app_remove_mid in Hdn. apply NoDup_remove_1 in Hdn. rewrite map_app. exact Hdn. }
    exists ob3, odd3, ([(next2, e)] ++ K3 ++ R4), next4.
    assert (Er : A ++ ([(next2, e)] ++ K3 ++ R4) ++ B = (A ++ [(next2, e)] ++ K3) ++ R4 ++ B) by (rewrite <- !app_assoc; reflexivity). rewrite Er.
    split; [|split; [|auto]].
    + cbn [length]. rewrite app_length. cbn [length]. replace (S (length D1 + S (length D)) + fu) with (S (length D1 + S (length D + fu))) by lia. rewrite G1, G2, G3. exact G4.
    + cbn [phrase_html]. rewrite !map_app. apply shown_app; [|apply shown_app; assumption]. cbn [map snd]. unfold e. apply shown_mark. rewrite map_app. apply shown_app; assumption.
Qed.

(** ** The inline loop *)
Definition lays (m : nat) (st st' : ip) (K : list (nat * tree)) (D : list delim) : Prop :=
  steps m st st' /\ ip_subject st' = ip_subject st /\ ip_kids st' = ip_kids st ++ K /\ ip_delims st' = rev D ++ ip_delims st /\
  ip_next st <= ip_next st' /\ Forall (fun i => ip_next st <= i < ip_next st') (ids K) /\ NoDup (ids K).
Lemma lays_moves m st st' K : moves m st st' K -> lays m st st' K [].
Proof. intros (A0 & A1 & A2 & A3 & A4 & A5 & A6 & A7 & A8 & A9). repeat (split; [assumption|]). assumption. Qed.
Lemma lays_trans n m a b c K K' D D' : lays n a b K D -> lays m b c K' D' -> lays (n + m) a c (K ++ K') (D ++ D').
Proof.
  intros (A0 & A1 & A2 & A3 & A4 & A5 & A6) (B0 & B1 & B2 & B3 & B4 & B5 & B6). split; [eapply steps_trans; eassumption|]. split; [congruence|]. rewrite B2, A2, B3, A3, app_assoc, rev_app_distr, app_assoc, ids_app.
  split; [reflexivity|]. split; [reflexivity|]. split; [lia|]. split; [apply Forall_app; split; (eapply Forall_impl; [|eassumption]); cbn; intros; lia|]. eapply NoDup_below; eassumption.
Qed.
Lemma mark_step st pre c n post : at_rest st (repeat c n ++ post) -> ip_subject st = pre ++ repeat c n ++ post -> n = 1 \/ n = 2 -> c = 42%N \/ c = 95%N -> hd_error post <> Some c ->
  exists st' op cl, lays 1 st st' [(ip_next st, text_node (repeat c n))] [DL c n n (ip_next st) op cl] /\ at_rest st' post /\
    (op = true <-> may_open is_space punctuation c (last pre LF) (hd LF post)) /\ (cl = true <-> may_close is_space punctuation c (last pre LF) (hd LF post)).
Proof.
  intros (E & Hb & [D1 D2] & Hsm & Hf) Esub Hn Hc Hp. assert (Hlen : ip_pos st = length pre).
  { pose proof (skipn_length (ip_pos st) (ip_subject st)) as X. rewrite E, Esub in X. rewrite !app_length, repeat_length in X. lia. }
  destruct (step_marks st pre c n post Esub Hlen ltac:(lia) Hc Hp) as (op & cl & P & O1 & C1).
  eexists. exists op, cl. split; [|split; [|split; [exact O1|exact C1]]].
  - split; [apply steps_one, P|]. unfold append_kid, ip_adv. cbn [set_ip_delims set_ip_pos set_ip_next set_ip_kids ip_subject ip_delims ip_kids ip_next ids map fst rev app]. repeat (split; [reflexivity|]). split; [lia|]. split; [repeat constructor; lia|]. repeat constructor. intros [].
  - split; [|split; [exact Hb|split; [split|split; [exact Hsm|]]]].
    + cbn [set_ip_delims append_kid ip_adv set_ip_pos set_ip_next set_ip_kids ip_subject ip_pos]. apply (skipn_adv st (repeat c n)); [exact E|rewrite repeat_length; reflexivity].
    + unfold append_kid, ip_adv. cbn [set_ip_delims set_ip_pos set_ip_next set_ip_kids ip_delims map d_node]. constructor; [|exact D1]. intros X. apply in_map_iff in X as (d & X1 & X2). rewrite Forall_forall in D2. apply D2 in X2. lia.
    + unfold append_kid, ip_adv. cbn [set_ip_delims set_ip_pos set_ip_next set_ip_kids ip_delims ip_next]. constructor; [cbn [d_node]; lia|]. eapply Forall_impl; [|exact D2]. cbv beta. intros; lia.
    + apply (fresh_append (text_node (repeat c n)) (ip_adv n st)). exact Hf.
Qed.
Lemma last_app_d (a b : str) d : last (a ++ b) d = last b (last a d).
Proof.
  destruct b as [|x b] using rev_ind; [rewrite app_nil_r; reflexivity|]. rewrite app_assoc, !last_last. reflexivity.
Qed.
Lemma last_d (a : str) d d' : a <> [] -> last a d = last a d'.
Proof. destruct a as [|x a] using rev_ind; [congruence|]. intros _. rewrite !last_last. reflexivity. Qed.
Lemma hd_app_d (a b : str) d : hd d (a ++ b) = hd (hd d b) a.
Proof. destruct a; reflexivity. Qed.
Lemma hd_d (a : str) d d' : a <> [] -> hd d a = hd d' a.
Proof. destruct a; [congruence|reflexivity]. Qed.
Lemma hd_neq (a : str) c d : hd d a <> c -> hd_error a <> Some c.
Proof. destruct a; [discriminate|]. cbn. congruence. Qed.
Definition starters : list N := [96; 92; 38; 91; 33; 60; 42; 95]%N.
Lemma phrase_starts env x l y : phrase_ok is_space punctuation true env x l y -> forall c q, phrase_text l = c :: q -> In c starters.
Proof.
  destruct l as [|p w r|c n v i w r]; [discriminate| |].
  - intros (Hp & _) c q. apply piece_starts in Hp as (z & t & E & Hz). cbn [phrase_text]. rewrite E. cbn [app]. intros X. injection X as <- _. unfold starters. cbn [In] in *. tauto.
  - intros (Hc & Hn & _) z q. cbn [phrase_text]. destruct n; [lia|]. cbn [repeat app]. intros X. injection X as <- _. unfold starters. cbn [In]. lia.
Qed.
Lemma starter_special c : In c starters -> main_special c = true.
Proof. intros [<-|[<-|[<-|[<-|[<-|[<-|[<-|[<-|[]]]]]]]]]; reflexivity. Qed.
Lemma words_lay w q st : Forall ordinary_char w -> (forall c q', q = c :: q' -> In c starters) -> (hd_error q = Some 91%N -> last_opt w <> Some 33%N) -> at_rest st (w ++ q) ->
  exists m st' K, m <= length w /\ lays m st st' K [] /\ shown o (map snd K) (html_text w) /\ at_rest st' q.
Proof.
  intros Hw Hq Hb R. destruct (words_steps q (fun c q' X => starter_special c (Hq c q' X)) (length w) w st (le_n _) R (words_tame w Hw) Hb) as (m & st' & K & ls & M & G & Ek & C & R').
  exists m, st', K. split; [exact M|]. split; [apply lays_moves, G|]. split; [|exact R']. rewrite Ek, <- C. apply shown_texts.
Qed.
Theorem phrase_steps l : forall env st pre q, (forall c q', q = c :: q' -> In c starters /\ c <> 91%N) -> phrase_ok is_space punctuation true env (last pre LF) l (hd LF q) ->
  at_rest st (phrase_text l ++ q) -> ip_subject st = pre ++ phrase_text l ++ q ->
  exists m st' K D, m <= length (phrase_text l) /\ lays m st st' K D /\ at_rest st' q /\ laid (map fst env) l K D.
Proof.
  induction l as [|p w r IH|c n v inner IHi w r IH]; intros env st pre q Hq Hok R Es.
  - exists 0, st, [], []. split; [cbn; lia|]. split; [apply lays_moves, moves_nil|]. split; [exact R|]. constructor.
  - destruct Hok as (Hp & [Hw Hb] & Hcode & Hok). cbn [phrase_text] in *. rewrite <- !app_assoc in R, Es.
    assert (Hst : forall c q', phrase_text r ++ q = c :: q' -> In c starters). { intros c q' X. destruct (phrase_text r) as [|z t] eqn:Er; [eapply Hq, X|]. cbn [app] in X. injection X as <- _. eapply phrase_starts; eassumption. }
    assert (Hb' : hd_error (phrase_text r ++ q) = Some 91%N -> last_opt w <> Some 33%N). { destruct (phrase_text r) as [|z t] eqn:Er; [|exact Hb]. cbn [app]. destruct q as [|z q]; [discriminate|]. intros X. injection X as ->. destruct (Hq _ _ eq_refl). congruence. }
    destruct (piece_step o p st (w ++ phrase_text r ++ q) Ho Hs Hp) as (m1 & st1 & K1 & M1 & G1 & R1 & S1); [|exact R|].
    { destruct p; auto. apply (hd_neq _ _ LF). rewrite app_assoc, hd_app_d. exact Hcode. }
    apply lays_moves in G1. destruct (words_lay w _ st1 Hw Hst Hb' R1) as (m2 & st2 & K2 & M2 & G2 & S2 & R2).
    pose proof (lays_trans _ _ _ _ _ _ _ _ _ G1 G2) as G12.
    destruct (IH env st2 (pre ++ piece_text p ++ w) q Hq) as (m3 & st3 & K3 & D3 & M3 & G3 & R3 & L3).
    + rewrite last_app_d. exact Hok.
    + exact R2.
    + destruct G12 as (_ & -> & _). rewrite Es, <- !app_assoc. reflexivity.
    + exists (m1 + m2 + m3), st3, (K1 ++ K2 ++ K3), D3. split; [rewrite !app_length; lia|]. split; [rewrite app_assoc; apply (lays_trans _ _ _ _ _ _ _ _ _ G12 G3)|]. split; [exact R3|]. constructor; assumption.
  - destruct Hok as (Hc & Hn & [Hv Hbv] & [Hw Hbw] & Ht & Hht & Hz & Hopen & Hclose & Hin & Hoki & Hok). cbn [phrase_text] in *. set (t := v ++ phrase_text inner) in *. rewrite <- !app_assoc in R, Es.
    assert (Hst : forall c q', phrase_text r ++ q = c :: q' -> In c starters). { intros z q' X. destruct (phrase_text r) as [|z' t'] eqn:Er; [eapply Hq, X|]. cbn [app] in X. injection X as <- _. eapply phrase_starts; eassumption. }
    assert (Hb' : hd_error (phrase_text r ++ q) = Some 91%N -> last_opt w <> Some 33%N). { destruct (phrase_text r) as [|z t'] eqn:Er; [|exact Hbw]. cbn [app]. destruct q as [|z q]; [discriminate|]. intros X. injection X as ->. destruct (Hq _ _ eq_refl). congruence. }
    set (q2 := w ++ phrase_text r ++ q) in *. set (q1 := repeat c n ++ q2) in *.
    assert (Eq2 : hd LF q2 = hd (hd LF q) (w ++ phrase_text r)) by (unfold q2; rewrite app_assoc, hd_app_d; reflexivity).
    assert (Hq1 : forall x q', q1 = x :: q' -> In x starters /\ x <> 91%N). { unfold q1. destruct n; [lia|]. cbn [repeat app]. intros x q' X. injection X as <- _. unfold starters. cbn [In]. lia. }
    assert (Eq1 : hd LF q1 = c) by (unfold q1; destruct n; [lia|]; reflexivity).
    destruct (mark_step st pre c n (t ++ q1) R Es Hn Hc) as (sa & op & oc & Ga & Ra & O1 & C1); [apply (hd_neq _ _ c); rewrite hd_app_d, (hd_d t _ c Ht); exact Hht|].
    assert (Eh : hd LF (t ++ q1) = hd c t) by (rewrite hd_app_d; apply hd_d, Ht). rewrite Eh in O1, C1. apply O1 in Hopen. subst op.
    unfold t in Ra. rewrite <- app_assoc in Ra.
    assert (Hsv : forall x q', phrase_text inner ++ q1 = x :: q' -> In x starters). { intros x q' X. destruct (phrase_text inner) as [|z' t'] eqn:Er; [eapply Hq1, X|]. cbn [app] in X. injection X as <- _. eapply phrase_starts; [exact Hoki|exact Er]. }
    destruct (words_lay v _ sa Hv Hsv) as (m1 & s1 & K1 & M1 & G1 & S1 & R1); [|exact Ra|].
    { destruct (phrase_text inner) as [|z t'] eqn:Er; [|exact Hbv]. cbn [app]. destruct q1 as [|z q1'] eqn:E1; [discriminate|]. intros X. injection X as ->. destruct (Hq1 _ _ eq_refl). congruence. }
    pose proof (lays_trans _ _ _ _ _ _ _ _ _ Ga G1) as Ga1.
    destruct (IHi ((c, n) :: env) s1 (pre ++ repeat c n ++ v) q1 Hq1) as (m2 & s2 & K2 & D2 & M2 & G2 & R2 & L2).
    { rewrite Eq1, !last_app_d. replace (last v (last (repeat c n) (last pre LF))) with (last v c); [exact Hoki|]. f_equal. destruct Hn as [->| ->]; reflexivity. }
    { exact R1. }
    { destruct Ga1 as (_ & -> & _). rewrite Es. unfold t. rewrite <- !app_assoc. reflexivity. }
    pose proof (lays_trans _ _ _ _ _ _ _ _ _ Ga1 G2) as Ga2.
    assert (Es2 : ip_subject s2 = (pre ++ repeat c n ++ t) ++ repeat c n ++ q2) by (destruct Ga2 as (_ & -> & _); rewrite Es, <- !app_assoc; reflexivity).
    destruct (mark_step s2 (pre ++ repeat c n ++ t) c n q2 R2 Es2 Hn Hc) as (s3 & co & cl & G3 & R3 & _ & C3); [apply (hd_neq _ _ LF); rewrite Eq2; exact Hz|].
    rewrite Eq2, !last_app_d in C3. rewrite (last_d t _ c Ht) in C3. apply C3 in Hclose. subst cl.
    pose proof (lays_trans _ _ _ _ _ _ _ _ _ Ga2 G3) as Ga3.
    destruct (words_lay w _ s3 Hw Hst Hb' R3) as (m4 & s4 & K4 & M4 & G4 & S4 & R4).
    pose proof (lays_trans _ _ _ _ _ _ _ _ _ Ga3 G4) as Ga4.
    destruct (IH env s4 (pre ++ repeat c n ++ t ++ repeat c n ++ w) q Hq) as (m5 & s5 & K5 & D5 & M5 & G5 & R5 & L5).
    { rewrite !last_app_d. replace (last w (last (repeat c n) (last t (last (repeat c n) (last pre LF))))) with (last w c); [exact Hok|]. f_equal. destruct Hn as [->| ->]; reflexivity. }
    { exact R4. }
    { destruct Ga4 as (_ & -> & _). rewrite Es. unfold q1, q2. rewrite <- !app_assoc. reflexivity. }
    pose proof (lays_trans _ _ _ _ _ _ _ _ _ Ga4 G5) as Ga5.
    exists (1 + m1 + m2 + 1 + m4 + m5), s5. eexists. eexists. split; [|split; [exact Ga5|split; [exact R5|]]].
    + unfold t. rewrite !app_length, repeat_length. lia.
    + rewrite <- !app_assoc. cbn [app]. rewrite (app_assoc K1 K2). apply (laid_marked (map fst env) c n v inner w r _ _ oc co K1 K2 D2 K4 K5 D5); try assumption. intros X Y. apply in_map_iff in Y as ([c' m'] & Y1 & Y2). cbn [fst] in Y1. subst c'. destruct (Hin (proj1 C1 X) m' Y2). discriminate.
Qed.

(** ** The paragraph *)
Lemma words_clean w : Forall ordinary_char w -> clean w.
Proof. intros H. eapply clean_all; [apply ordinary_clean|exact H]. Qed.
Lemma phrase_clean env l : forall x y, phrase_ok is_space punctuation true env x l y -> clean (phrase_text l).
Proof.
  revert env. induction l as [|p w r IH|c n v inner IHi w r IH]; intros env x y Hok; cbn [phrase_text].
  - apply clean_nil.
  - destruct Hok as (Hp & [Hw _] & _ & Hok). apply clean_app; [apply piece_clean, Hp|]. apply clean_app; [apply words_clean, Hw|]. eapply IH, Hok.
  - destruct Hok as (Hc & Hn & [Hv _] & [Hw _] & _ & _ & _ & _ & _ & _ & Hoki & Hok). assert (Hr : clean (repeat c n)) by (apply clean_repeat; cbn [In]; lia).
    apply clean_app; [exact Hr|]. apply clean_app; [apply clean_app; [apply words_clean, Hv|eapply IHi, Hoki]|]. apply clean_app; [exact Hr|]. apply clean_app; [apply words_clean, Hw|eapply IH, Hok].
Qed.
Lemma no_number_starter w q : ~ list_number w -> (forall c q', q = c :: q' -> In c starters) -> ~ list_number (w ++ q).
Proof.
  intros Hw Hq (ds & x & r & E & Hne & Hd & Hx & Hr). apply Hw. apply app_split in E as (l & [[E1 E2]|[E1 E2]]).
  - destruct l as [|y l]; cbn [app] in E2.
    + rewrite app_nil_r in E1. subst. specialize (Hq x r eq_refl). unfold starters in Hq. cbn [In] in Hq. lia.
    + injection E2 as <- E2. subst w r. exists ds, x, l. split; [reflexivity|]. split; [exact Hne|]. split; [exact Hd|]. split; [exact Hx|]. destruct l as [|z l]; [auto|]. right. destruct Hr as [Hr|Hr]; [discriminate|exact Hr].
  - exfalso. destruct l as [|y l]; cbn [app] in E2; [specialize (Hq x r E2); unfold starters in Hq; cbn [In] in Hq; lia|]. specialize (Hq y (l ++ x :: r) E2). subst ds. apply Forall_app in Hd as [_ Hd]. apply Forall_inv in Hd.
    unfold starters in Hq. cbn [In] in Hq. destruct Hq as [<-|[<-|[<-|[<-|[<-|[<-|[<-|[<-|[]]]]]]]]]; discriminate Hd.
Qed.
(** the inline phase of words and what follows them *)
Lemma phrase_loop w l rm : words_before w l -> phrase_ok is_space punctuation true [] (last w 10%N) l 10%N -> let s := w ++ phrase_text l in let st := IP s 0 rm false [] [] [] 0 in
  exists st' ds' ks' n', inline_loop (S (length s)) st = Ok st' /\ processEmphasis None (ip_delims st') (ip_kids st') (ip_next st') = Ok (ds', ks', n') /\ shown o (map snd ks') (html_text w ++ phrase_html l).
Proof.
  intros [Hw Hb] Hok s st. pose proof (phrase_starts _ _ _ _ Hok) as Hq.
  assert (R : at_rest st s) by (unfold at_rest, st, fresh; cbn [ip_pos ip_subject ip_brackets ip_delims ip_smart ip_kids skipn map]; repeat (split; [try reflexivity; constructor; constructor|]); constructor).
  destruct (words_lay w (phrase_text l) st Hw Hq Hb R) as (m1 & st1 & K1 & M1 & G1 & S1 & R1).
  rewrite <- (app_nil_r (phrase_text l)) in R1. assert (Es1 : ip_subject st1 = w ++ phrase_text l ++ []) by (destruct G1 as (_ & -> & _); rewrite app_nil_r; reflexivity).
  destruct (phrase_steps l [] st1 w [] ltac:(discriminate) Hok R1 Es1) as (m2 & st2 & K2 & D & M2 & G2 & R2 & L2).
  pose proof (lays_trans _ _ _ _ _ _ _ _ _ G1 G2) as (Gs & _ & Gk & Gd & _ & Gi & Gn). cbn [app] in Gk, Gd. change (ip_kids st) with (@nil (nat * tree)) in Gk. change (ip_delims st) with (@nil delim) in Gd. cbn [app] in Gk. rewrite app_nil_r in Gd.
  destruct R2 as (E2 & _ & [Dn Dl] & _).
  assert (Gp : exists ds' ks' n', processEmphasis None (ip_delims st2) (ip_kids st2) (ip_next st2) = Ok (ds', ks', n') /\ shown o (map snd ks') (html_text w ++ phrase_html l)).
  { rewrite Gk, Gd. rewrite Gd in Dn, Dl. 
    destruct (pair_all _ _ _ _ L2 [] [] (OB None None None None) false K1 [] (ip_next st2) (S (delims_measure (rev D) - length D))) as (ob' & odd' & RR & next' & Pl & Sh' & _).
    - constructor.
    - rewrite app_nil_r. exact Gn.
    - rewrite app_nil_r. eapply Forall_impl; [|exact Gi]. cbv beta. intros; lia.
    - constructor.
    - rewrite app_nil_r. cbn [app]. apply Forall_forall. intros d Hd. destruct (laid_delims _ _ _ _ L2) as [Hem _]. unfold emph_delims in Hem. rewrite Forall_forall in Hem. apply Hem in Hd as [<-|[<-|[]]]; discriminate.
    - rewrite app_nil_r. cbn [app]. rewrite map_rev in Dn. apply NoDup_rev in Dn. rewrite rev_involutive in Dn. exact Dn.
    - rewrite !app_nil_r in Pl. destruct D as [|d D].
      + cbn [rev]. rewrite emphasis_none. cbn [length Nat.add pe_loop pe_cur] in Pl. apply Ok_inj in Pl. injection Pl as Eo Ed Ek En. do 3 eexists. split; [reflexivity|]. rewrite Ek, map_app. apply shown_app; assumption.
      + assert (Ef : first_closer None (rev (d :: D)) [] = ([], d :: D)).
        { pose proof (first_closer_up None [] eq_refl (rev (d :: D)) []) as X. rewrite app_nil_r, rev_involutive, app_nil_r in X. apply X; [apply Forall_forall; intros z _ Y; discriminate Y|intros Y; apply (f_equal (@length delim)) in Y; rewrite rev_length in Y; discriminate]. }
        unfold processEmphasis. rewrite Ef. replace (S (delims_measure (rev (d :: D)))) with (length (d :: D) + S (delims_measure (rev (d :: D)) - length (d :: D))).
        * rewrite Pl. cbn [pe_loop pe_cur bind pe_left pe_kids pe_next]. do 3 eexists. split; [reflexivity|]. rewrite map_app. apply shown_app; assumption.
        * assert (X : forall z, length z <= delims_measure z) by (induction z as [|y z IHz]; cbn [length delims_measure fold_right]; [lia|]; unfold delims_measure in IHz; lia). rewrite measure_rev. specialize (X (d :: D)). lia. }
  destruct Gp as (ds' & ks' & n' & P1 & P2). exists st2, ds', ks', n'. split; [|split; [exact P1|exact P2]].
  replace (S (length s)) with (m1 + m2 + S (length s - (m1 + m2))) by (unfold s in *; rewrite app_length in *; lia). rewrite Gs. apply loop_end, E2.
Qed.
Theorem nest_both w l : nest_ok is_space punctuation true w l ->
  (exists dd pd k, parse_doc false (w ++ phrase_text l) = Ok (T dd [T pd k]) /\ n_t pd = paragraph) /\ md_to_html false o (w ++ phrase_text l) = Ok (u "<p>" ++ html_text w ++ phrase_html l ++ u "</p>" ++ [10%N]).
Proof.
  intros ([Hw Hb] & Hok & Hh & Hl). set (s := w ++ phrase_text l) in *. pose proof (phrase_starts _ _ _ _ Hok) as Hq.
  assert (Hc : clean s) by (apply clean_app; [apply words_clean, Hw|eapply phrase_clean, Hok]). apply clean_spec in Hc as [He H0].
  assert (Hhead : s <> [] /\ (forall c, hd_error s = Some c -> is_space c = false /\ c <> 91%N) /\ no_start s).
  { destruct w as [|c r].
    - destruct l as [| |c n v inner w r]; [contradiction|contradiction|]. destruct Hok as (Hcc & Hn & [Hv _] & _ & Ht & Hht & _ & [[Hopen _] _] & _). 
      assert (Es : s = repeat c n ++ v ++ (phrase_text inner ++ repeat c n ++ w ++ phrase_text r)) by (unfold s; cbn [phrase_text app]; rewrite <- !app_assoc; reflexivity).
      assert (Eh : forall x, hd_error s = Some x -> x = c) by (rewrite Es; destruct n; [lia|]; cbn [repeat app hd_error]; intros x X; congruence).
      split; [rewrite Es; destruct n; [lia|discriminate]|]. split; [intros x X; apply Eh in X as ->; destruct Hcc as [->| ->]; split; (reflexivity || discriminate)|].
      rewrite Es. apply marks_no_start; [exact Hn|exact Hcc|apply words_tame, Hv| |exact Hh|rewrite <- Es; intros X; apply He in X; tauto].
      intros x X. destruct v as [|z v]; [discriminate|]. injection X as ->. cbn [app hd] in Hopen. split; intros ->; discriminate Hopen.
    - destruct Hh as (Hsp & Hbl & Hnum). split; [discriminate|]. split.
      + intros x X. injection X as <-. split; [exact Hsp|]. intros ->. apply Forall_inv in Hw. apply Hw. cbn; auto 20.
      + apply no_start_text; [|exact (no_number_starter (c :: r) (phrase_text l) Hnum Hq)]. unfold start_char. destruct (existsb _ _) eqn:E; [|reflexivity]. exfalso. apply Hbl. apply existsb_exists in E as (y & Hy & E). apply N.eqb_eq in E as ->. exact Hy. }
  destruct Hhead as (Hne & Hhd & Hst). clear Hh.
  destruct (line_para false s (fun k => shown o k (html_text w ++ phrase_html l)) Hne He H0 Hhd Hl Hst) as (dd & pd & k & P & D1 & D2 & _ & Sh).
  - intros rm st. exact (phrase_loop w l rm (conj Hw Hb) Hok).
  - split; [exists dd, pd, k; auto|]. unfold md_to_html. rewrite P. cbn [bind]. rewrite (app_assoc (html_text w)). apply (para_html o dd pd k _ Ho D1 D2). intros st Hd.
    destruct (Sh [pd; dd] st Hd) as (x & ->). exists x. rewrite Hd. reflexivity.
Qed.
Theorem nest_md w l : nest_ok is_space punctuation true w l -> md_to_html false o (w ++ phrase_text l) = Ok (u "<p>" ++ html_text w ++ phrase_html l ++ u "</p>" ++ [10%N]).
Proof. intros H. apply nest_both, H. Qed.
End Opts.
