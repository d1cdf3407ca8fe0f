(** * Facts about the HTML renderer *)
From Verif Require Import Base Regex Entities Common Node Html RegexFacts StrFacts TreeFacts Spec.
From Coq Require Import ZifyBool ZifyNat ZifyN.

(** ** Escaped strings *)
Lemma app_split {A} (a b c d : list A) :
  a ++ b = c ++ d -> exists l, (a = c ++ l /\ d = l ++ b) \/ (c = a ++ l /\ b = l ++ d).
Proof.
  revert c. induction a as [|x a IH]; intros c H; cbn in H.
  - exists c. right. auto.
  - destruct c as [|y c]; cbn in H.
    + exists (x :: a). left. auto.
    + injection H as -> H. destruct (IH _ H) as [l [[-> ->]|[-> ->]]]; exists l; [left|right]; auto.
Qed.

Lemma escaped_nil : escaped [].
Proof. repeat split; auto. intros p r H. destruct p; discriminate. Qed.
Lemma escaped_app a b : escaped a -> escaped b -> escaped (a ++ b).
Proof.
  intros (A1 & A2 & A3 & A4) (B1 & B2 & B3 & B4). repeat split; try (rewrite in_app_iff; tauto).
  intros p r H. apply app_split in H as [l [[-> H]|[-> ->]]].
  - destruct l as [|x l]; cbn in H.
    + symmetry in H. apply (B4 []) in H. exact H.
    + injection H as <- ->. destruct (A4 p l eq_refl) as (e & r' & He & ->).
      exists e, (r' ++ b). rewrite app_assoc. auto.
  - apply (B4 l). reflexivity.
Qed.
Definition plain (c : N) : bool := negb (N.eqb c 38 || N.eqb c 60 || N.eqb c 62 || N.eqb c 34).
Lemma escaped_plain s : forallb plain s = true -> escaped s.
Proof.
  intros H. rewrite forallb_forall in H. unfold plain in H.
  repeat split; try (intros Hin; apply H in Hin; discriminate).
  intros p r ->. specialize (H 38%N). rewrite in_app_iff in H. discriminate H. right. left. reflexivity.
Qed.
Lemma escaped_esc_char c : escaped (esc_char c).
Proof.
  unfold esc_char.
  assert (Hent : forall e, In e entity_names -> escaped (38%N :: e)).
  { intros e He. repeat split.
    1-3: intros [H|H]; [discriminate|]; cbn in He; intuition; subst e; cbn in H; intuition discriminate.
    intros [|x p] r H; cbn in H.
    - injection H as ->. exists r, []. rewrite app_nil_r. auto.
    - exfalso. injection H as Hx He'. assert (HH : In 38%N e) by (rewrite He'; apply in_or_app; right; left; reflexivity).
      clear He' Hx. cbn in He. intuition; subst e; cbn in HH; intuition discriminate. }
  destruct (N.eqb c 38) eqn:E1; [apply (Hent (u "amp;")); cbn; tauto|].
  destruct (N.eqb c 60) eqn:E2; [apply (Hent (u "lt;")); cbn; tauto|].
  destruct (N.eqb c 62) eqn:E3; [apply (Hent (u "gt;")); cbn; tauto|].
  destruct (N.eqb c 34) eqn:E4; [apply (Hent (u "quot;")); cbn; tauto|].
  apply escaped_plain. cbn. unfold plain. rewrite E1, E2, E3, E4. reflexivity.
Qed.
Lemma escaped_escape_xml s : escaped (escape_xml s).
Proof.
  rewrite escape_xml_flat_map. induction s as [|c s IH]; [apply escaped_nil|].
  cbn. apply escaped_app; [apply escaped_esc_char|exact IH].
Qed.
Lemma escaped_escape_xml_opt s : escaped (escape_xml_opt s).
Proof. destruct s; [apply escaped_escape_xml|apply escaped_nil]. Qed.

Lemma dec_digits_plain f : forall n acc, forallb plain acc = true -> forallb plain (dec_digits f n acc) = true.
Proof.
  induction f as [|f IH]; intros n acc H; cbn [dec_digits]; [exact H|].
  assert (Hd : plain (48 + n mod 10)%N = true).
  { unfold plain. pose proof (N.mod_lt n 10). lia. }
  destruct (N.ltb n 10).
  - cbn [forallb]. rewrite Hd, H. reflexivity.
  - apply IH. cbn [forallb]. rewrite Hd, H. reflexivity.
Qed.
Lemma str_of_N_plain n : forallb plain (str_of_N n) = true.
Proof. apply dec_digits_plain. reflexivity. Qed.

(** ** decode (C04) *)
Lemma decode_esc_char c s : decode_xml (esc_char c ++ s) = c :: decode_xml s.
Proof.
  unfold esc_char.
  destruct (N.eqb c 38) eqn:E1; [apply N.eqb_eq in E1 as ->; reflexivity|].
  destruct (N.eqb c 60) eqn:E2; [apply N.eqb_eq in E2 as ->; reflexivity|].
  destruct (N.eqb c 62) eqn:E3; [apply N.eqb_eq in E3 as ->; reflexivity|].
  destruct (N.eqb c 34) eqn:E4; [apply N.eqb_eq in E4 as ->; reflexivity|].
  cbn [app]. apply N.eqb_neq in E1.
  destruct c as [|p]; [reflexivity|].
  do 6 (destruct p as [p|p|]; try reflexivity). congruence.
Qed.
Lemma decode_escape_xml s : decode_xml (escape_xml s) = s.
Proof.
  rewrite escape_xml_flat_map. induction s as [|c s IH]; [reflexivity|].
  cbn [flat_map]. rewrite decode_esc_char, IH. reflexivity.
Qed.
Lemma escape_xml_plain s : forallb plain s = true -> escape_xml s = s.
Proof.
  intros H. rewrite escape_xml_flat_map. apply flat_map_id. intros c Hc.
  rewrite forallb_forall in H. apply H in Hc. unfold plain in Hc. unfold esc_char.
  destruct (N.eqb c 38), (N.eqb c 60), (N.eqb c 62), (N.eqb c 34); try discriminate; reflexivity.
Qed.

(** ** Running the renderer over concatenated event lists *)
Lemma html_events_app o a : forall b st,
  html_events o (a ++ b) st = let* st1 := html_events o a st in html_events o b st1.
Proof.
  induction a as [|[[d k] e anc] a IH]; intros b st; cbn; [reflexivity|].
  destruct (html_node o d anc e st); cbn; [apply IH|reflexivity].
Qed.

(** [st'] is [st] with [out] appended to the buffer *)
Definition emits (out : str) (st st' : hst) : Prop :=
  h_buf st' = h_buf st ++ out /\ h_dis st' = h_dis st.
Lemma emits_nil st : emits [] st st.
Proof. split; [rewrite app_nil_r|]; reflexivity. Qed.
Lemma emits_trans a b s1 s2 s3 : emits a s1 s2 -> emits b s2 s3 -> emits (a ++ b) s1 s3.
Proof. intros [H1 H2] [H3 H4]. split; [rewrite H3, H1, app_assoc|congruence]; reflexivity. Qed.
Lemma emits_lit s st : emits s st (h_lit s st).
Proof. split; reflexivity. Qed.
Definition cr_out (st : hst) : str := if str_eqb (h_last st) [LF] then [] else [LF].
Lemma emits_cr st : emits (cr_out st) st (h_cr st).
Proof. unfold h_cr, cr_out. destruct (str_eqb _ _); [apply emits_nil|apply emits_lit]. Qed.
Lemma escaped_cr st : escaped (cr_out st).
Proof. apply escaped_plain. unfold cr_out. destruct (str_eqb _ _); reflexivity. Qed.
Definition tag_str (z : Z) (name : str) (attrs : list (str * str)) (sc : bool) : str :=
  if Z.ltb 0 z then [] else u "<" ++ name ++ attrs_str attrs ++ (if sc then u " /" else []) ++ u ">".
Lemma emits_tag name attrs sc st : emits (tag_str (h_dis st) name attrs sc) st (h_tag name attrs sc st).
Proof.
  unfold h_tag, tag_str. destruct (Z.ltb 0 (h_dis st)); [apply emits_nil|]. split; reflexivity.
Qed.

Section Balanced.
  Variable o : hopts.
  Variable raw : str -> Prop.
  Variable url : str -> Prop.
  Hypothesis Hsb : raw (ho_softbreak o) \/ escaped (ho_softbreak o).
  Hypothesis Hurl : forall dest, unsafe_dest o dest = Ok false -> url (escape_xml_opt dest).
  Hypothesis Hurl0 : url [].
  Hypothesis Homit : ho_safe o = true -> raw omitted.

  (** What the renderer needs of a node *)
  Definition node_ok (d : ndata) : Prop :=
    n_t d <> custom_inline /\ n_t d <> custom_block /\
    (n_t d = heading -> exists n, n_level d = Some n /\ 1 <= n <= 6) /\
    (ho_safe o = false -> n_t d = html_inline \/ n_t d = html_block ->
       forall l, n_literal d = Some l -> raw l).

  Definition ok_out (z : Z) (s : str) : Prop :=
    ((z = 0)%Z -> balanced raw url s) /\ ((0 < z)%Z -> alt_text raw s).

  Lemma balanced_app a b : balanced raw url a -> balanced raw url b -> balanced raw url (a ++ b).
  Proof.
    intros Ha Hb. induction Ha; cbn [app]; rewrite <- ?app_assoc; auto.
    - apply bal_text; auto.
    - apply bal_raw; auto.
    - rewrite !app_assoc. rewrite <- !app_assoc. 
      pose proof (bal_void raw url n attrs _ H H0 IHHa) as X. rewrite <- !app_assoc in X. exact X.
    - pose proof (bal_img raw url src alt title _ H H0 H1 H2 IHHa) as X. rewrite <- !app_assoc in X. exact X.
    - pose proof (bal_img_no_title raw url src alt _ H H0 H1 IHHa) as X. rewrite <- !app_assoc in X. exact X.
    - pose proof (bal_elem raw url n attrs body _ H H0 Ha1 IHHa2) as X. rewrite <- !app_assoc in X. exact X.
  Qed.
  Lemma alt_app a b : alt_text raw a -> alt_text raw b -> alt_text raw (a ++ b).
  Proof.
    intros Ha Hb. induction Ha; cbn [app]; rewrite <- ?app_assoc; auto; [apply alt_esc|apply alt_raw]; auto.
  Qed.
  Lemma ok_nil z : ok_out z [].
  Proof. split; constructor. Qed.
  Lemma ok_app z a b : ok_out z a -> ok_out z b -> ok_out z (a ++ b).
  Proof. intros [A1 A2] [B1 B2]. split; intros H; [apply balanced_app|apply alt_app]; auto. Qed.
  Lemma ok_esc z s : escaped s -> ok_out z s.
  Proof.
    intros H. rewrite <- (app_nil_r s). split; intros _; [apply bal_text|apply alt_esc]; auto; constructor.
  Qed.
  Lemma ok_raw z s : raw s -> ok_out z s.
  Proof.
    intros H. rewrite <- (app_nil_r s). split; intros _; [apply bal_raw|apply alt_raw]; auto; constructor.
  Qed.
  Lemma ok_void z n attrs : In n void_names -> good_attrs url attrs -> ok_out z (tag_str z n attrs true).
  Proof.
    intros Hn Ha. unfold tag_str. split; intros Hz.
    - replace (Z.ltb 0 z) with false by lia.
      pose proof (bal_void raw url n attrs [] Hn Ha (bal_nil _ _)) as X.
      rewrite app_nil_r in X. exact X.
    - replace (Z.ltb 0 z) with true by lia. constructor.
  Qed.
  Lemma ok_elem z n attrs body :
    In n element_names -> good_attrs url attrs -> ok_out z body ->
    ok_out z (tag_str z n attrs false ++ body ++ tag_str z (u "/" ++ n) [] false).
  Proof.
    intros Hn Ha [B1 B2]. unfold tag_str. split; intros Hz.
    - replace (Z.ltb 0 z) with false by lia.
      pose proof (bal_elem raw url n attrs body [] Hn Ha (B1 Hz) (bal_nil _ _)) as X.
      rewrite app_nil_r in X. exact X.
    - replace (Z.ltb 0 z) with true by lia. cbn. rewrite app_nil_r. auto.
  Qed.

  Lemma good_nil : good_attrs url [].
  Proof. constructor. Qed.
  Lemma good_app a b : good_attrs url a -> good_attrs url b -> good_attrs url (a ++ b).
  Proof. apply Forall_app_2 || (intros; apply Forall_app; auto). Qed.
  Lemma good_one n v : In n attr_names -> escaped v -> n <> u "href" -> good_attrs url [(n, v)].
  Proof. intros H1 H2 H3. constructor; [|constructor]. split; [exact H1|]. split; [exact H2|]. intros E. destruct (H3 E). Qed.
  Lemma good_attrs_of d : good_attrs url (attrs_of o d).
  Proof.
    unfold attrs_of. destruct (ho_sourcepos o); [|constructor].
    destruct (n_sourcepos d) as [[[l1 c1] [l2 c2]]|]; [|constructor].
    apply good_one; [cbn; tauto| |discriminate].
    apply escaped_plain. rewrite !forallb_app. unfold str_of_nat. rewrite !str_of_N_plain. reflexivity.
  Qed.

  (** emitting something fine *)
  Definition step_ok (st st' : hst) : Prop :=
    exists out, emits out st st' /\ ok_out (h_dis st) out.
  Lemma step_trans a b c : step_ok a b -> step_ok b c -> step_ok a c.
  Proof.
    intros (o1 & E1 & K1) (o2 & E2 & K2). exists (o1 ++ o2). split; [eapply emits_trans; eassumption|].
    apply ok_app; [exact K1|]. destruct E1 as [_ <-]. exact K2.
  Qed.
  Lemma step_refl st : step_ok st st.
  Proof. exists []. split; [apply emits_nil|apply ok_nil]. Qed.
  Lemma step_cr st : step_ok st (h_cr st).
  Proof. exists (cr_out st). split; [apply emits_cr|apply ok_esc, escaped_cr]. Qed.
  Lemma step_lit_esc s st : escaped s -> step_ok st (h_lit s st).
  Proof. intros H. exists s. split; [apply emits_lit|apply ok_esc, H]. Qed.
  Lemma step_lit_raw s st : raw s -> step_ok st (h_lit s st).
  Proof. intros H. exists s. split; [apply emits_lit|apply ok_raw, H]. Qed.
  Lemma step_out s st : step_ok st (h_out s st).
  Proof. apply step_lit_esc, escaped_escape_xml_opt. Qed.
  Lemma step_void n attrs st : In n void_names -> good_attrs url attrs -> step_ok st (h_tag n attrs true st).
  Proof. intros. eexists. split; [apply emits_tag|apply ok_void; auto]. Qed.
  (** [b] follows the opening tag, [c] precedes the closing tag *)
  Lemma step_elem n attrs st c :
    In n element_names -> good_attrs url attrs -> step_ok (h_tag n attrs false st) c ->
    step_ok st (h_tag0 (u "/" ++ n) c).
  Proof.
    intros Hn Ha (body & Eb & Kb).
    pose proof (emits_tag n attrs false st) as E1. destruct (E1) as [_ D1].
    pose proof (emits_tag (u "/" ++ n) [] false c) as E2. destruct Eb as [Eb1 Eb2].
    rewrite D1 in Eb2, Kb. rewrite Eb2 in E2.
    eexists. split.
    - eapply emits_trans; [exact E1|]. eapply emits_trans; [|exact E2]. split; [exact Eb1|congruence].
    - apply ok_elem; auto.
  Qed.

  Lemma step_raw_node d st st' :
    node_ok d -> n_t d = html_inline \/ n_t d = html_block ->
    h_html_inline o d st = Ok st' -> step_ok st st'.
  Proof.
    intros (_ & _ & _ & Hraw) Ht. unfold h_html_inline. destruct (ho_safe o) eqn:E.
    - intros H. injection H as <-. apply step_lit_raw. auto.
    - destruct (n_literal d) as [l|] eqn:El; cbn; [|discriminate].
      intros H. injection H as <-. apply step_lit_raw. eapply Hraw; eauto.
  Qed.

  Definition kids_ok (anc : list ndata) (kids : list tree) : Prop :=
    forall st st', html_events o (flat_map (events anc) kids) st = Ok st' ->
    (0 <= h_dis st)%Z -> step_ok st st'.

  Lemma level_name n : 1 <= n <= 6 -> In (u "h" ++ level_str (Some n)) element_names.
  Proof.
    intros H. do 7 (destruct n as [|n]; [try lia; vm_compute; tauto|]). lia.
  Qed.

  Lemma dis_cr st : h_dis (h_cr st) = h_dis st.
  Proof. apply emits_cr. Qed.
  Lemma dis_tag a b c st : h_dis (h_tag a b c st) = h_dis st.
  Proof. apply emits_tag. Qed.
  Lemma dis_tag0 a st : h_dis (h_tag0 a st) = h_dis st.
  Proof. apply emits_tag. Qed.

  (** all but images: a container is well rendered if its children are *)
  Lemma render_container d kids anc st st' :
    node_ok d -> is_container (n_t d) = true -> n_t d <> image ->
    kids_ok (d :: anc) kids ->
    html_events o (events anc (T d kids)) st = Ok st' ->
    (0 <= h_dis st)%Z -> step_ok st st'.
  Proof.
    intros Hok Hc Him Hk H Hz. cbn [events] in H. rewrite Hc in H.
    cbn [html_events] in H.
    destruct (html_node o d anc true st) as [s1|] eqn:E1; cbn [bind] in H; [|discriminate].
    rewrite html_events_app in H.
    destruct (html_events o (flat_map _ kids) s1) as [s2|] eqn:E2; cbn [bind] in H; [|discriminate].
    cbn [html_events] in H.
    destruct (html_node o d anc false s2) as [s3|] eqn:E3; cbn [bind] in H; [|discriminate].
    injection H as <-.
    specialize (Hk s1 s2 E2).
    destruct Hok as (O1 & O2 & O3 & O4).
    unfold html_node in E1, E3. destruct (n_t d) eqn:Et; try congruence; try (vm_compute in Hc; discriminate Hc).
    - (* document *) injection E1 as <-. injection E3 as <-. apply Hk, Hz.
    - (* block_quote *)
      injection E1 as <-. injection E3 as <-.
      eapply step_trans; [apply step_cr|]. eapply step_trans; [|apply step_cr].
      apply (step_elem (u "blockquote") (attrs_of o d)); [cbn; tauto|apply good_attrs_of|].
      eapply step_trans; [apply step_cr|]. eapply step_trans; [|apply step_cr]. apply Hk.
      rewrite ?dis_cr, ?dis_tag, ?dis_tag0, ?dis_cr. exact Hz.
    - (* list *)
      unfold h_list in *. destruct (n_list_data d) as [ld|]; cbn [of_option bind] in E1, E3; [|discriminate].
      injection E1 as <-. injection E3 as <-.
      set (name := match ld_type ld with bullet => u "ul" | ordered => u "ol" end) in *.
      eapply step_trans; [apply step_cr|]. eapply step_trans; [|apply step_cr].
      eapply (step_elem name).
      + unfold name. destruct (ld_type ld); cbn; tauto.
      + instantiate (1 := attrs_of o d ++ match ld_start ld with
                     | Some n => if N.eqb n 1 then [] else [(u "start", str_of_N n)]
                     | None => []
                     end).
        apply good_app; [apply good_attrs_of|]. destruct (ld_start ld) as [n|]; [|constructor].
        destruct (N.eqb n 1); [constructor|]. apply good_one; [cbn; tauto| |discriminate].
        apply escaped_plain, str_of_N_plain.
      + eapply step_trans; [apply step_cr|]. eapply step_trans; [|apply step_cr]. apply Hk.
        rewrite ?dis_cr, ?dis_tag, ?dis_tag0, ?dis_cr. exact Hz.
    - (* item *)
      injection E1 as <-. injection E3 as <-.
      eapply step_trans; [|apply step_cr].
      apply (step_elem (u "li") (attrs_of o d)); [cbn; tauto|apply good_attrs_of|]. apply Hk.
      rewrite ?dis_cr, ?dis_tag, ?dis_tag0, ?dis_cr. exact Hz.
    - (* paragraph *)
      unfold h_paragraph in *. destruct anc as [|pa gp]; [discriminate|].
      match type of E1 with (let* tight := ?X in _) = _ => destruct X as [tight|] eqn:Et' end;
        cbn [bind] in E1, E3; [|discriminate].
      injection E1 as <-. injection E3 as <-. destruct tight; [apply Hk, Hz|].
      eapply step_trans; [apply step_cr|]. eapply step_trans; [|apply step_cr].
      apply (step_elem (u "p") (attrs_of o d)); [cbn; tauto|apply good_attrs_of|]. apply Hk.
      rewrite ?dis_cr, ?dis_tag, ?dis_tag0, ?dis_cr. exact Hz.
    - (* heading *)
      destruct (O3 eq_refl) as (n & Hn & Hr). unfold h_heading in *. rewrite Hn in *.
      injection E1 as <-. injection E3 as <-.
      eapply step_trans; [apply step_cr|]. eapply step_trans; [|apply step_cr].
      apply (step_elem (u "h" ++ level_str (Some n)) (attrs_of o d)); [apply level_name, Hr|apply good_attrs_of|]. apply Hk.
      rewrite ?dis_cr, ?dis_tag, ?dis_tag0, ?dis_cr. exact Hz.
    - (* emph *)
      injection E1 as <-. injection E3 as <-.
      apply (step_elem (u "em") []); [cbn; tauto|apply good_nil|]. apply Hk.
      rewrite ?dis_cr, ?dis_tag, ?dis_tag0, ?dis_cr. exact Hz.
    - (* strong *)
      injection E1 as <-. injection E3 as <-.
      apply (step_elem (u "strong") []); [cbn; tauto|apply good_nil|]. apply Hk.
      rewrite ?dis_cr, ?dis_tag, ?dis_tag0, ?dis_cr. exact Hz.
    - (* link *)
      unfold h_link in *. destruct (unsafe_dest o (n_destination d)) as [uns|] eqn:Eu; cbn [bind] in E1, E3; [|discriminate].
      injection E1 as <-. injection E3 as <-.
      eapply (step_elem (u "a")); [cbn; tauto| |apply Hk].
      + apply good_app; [apply good_attrs_of|]. apply good_app.
        * destruct uns; [constructor|]. constructor; [|constructor]. split; [cbn; tauto|].
          split; [apply escaped_escape_xml_opt|]. intros _. apply Hurl, Eu.
        * destruct (truthy (n_title d)); [|constructor]. apply good_one; [cbn; tauto|apply escaped_escape_xml_opt|discriminate].
      + rewrite ?dis_cr, ?dis_tag, ?dis_tag0, ?dis_cr. exact Hz.
  Qed.

  Lemma render_image d kids anc st st' :
    n_t d = image ->
    kids_ok (d :: anc) kids ->
    html_events o (events anc (T d kids)) st = Ok st' ->
    (0 <= h_dis st)%Z -> step_ok st st'.
  Proof.
    intros Et Hk H Hz. cbn [events] in H.
    assert (Hc : is_container (n_t d) = true) by (rewrite Et; vm_compute; reflexivity).
    rewrite Hc in H. cbn [html_events] in H.
    destruct (html_node o d anc true st) as [s1|] eqn:E1; cbn [bind] in H; [|discriminate].
    rewrite html_events_app in H.
    destruct (html_events o (flat_map _ kids) s1) as [s2|] eqn:E2; cbn [bind] in H; [|discriminate].
    cbn [html_events] in H.
    destruct (html_node o d anc false s2) as [s3|] eqn:E3; cbn [bind] in H; [|discriminate].
    injection H as <-. specialize (Hk s1 s2 E2).
    unfold html_node in E1, E3. rewrite Et in E1, E3. unfold h_image in E1, E3.
    destruct (Z.eqb (h_dis st) 0) eqn:Ez.
    - (* outermost image *)
      apply Z.eqb_eq in Ez.
      destruct (unsafe_dest o (n_destination d)) as [uns|] eqn:Eu; cbn [bind] in E1; [|discriminate].
      injection E1 as E1.
      set (src := if uns then [] else escape_xml_opt (n_destination d)).
      assert (Hsrc : url src /\ escaped src).
      { unfold src. destruct uns; split; auto using escaped_nil, escaped_escape_xml_opt. }
      assert (Ed1 : h_dis s1 = 1%Z).
      { subst s1. destruct uns; cbn [h_lit set_h_dis h_dis]; lia. }
      assert (Eb0 : h_buf s1 = h_buf st ++ (u "<img src=""" ++ src ++ u """ alt=""")).
      { subst s1. unfold src. destruct uns; cbn [h_lit set_h_dis h_buf]; reflexivity. }
      rewrite Ed1 in Hk. destruct Hk as (alt & [Eb Ed] & [_ Ka]); [lia|]. rewrite Ed1 in Ed, Ka.
      specialize (Ka ltac:(lia)).
      assert (Eb1 : h_buf s2 = h_buf st ++ (u "<img src=""" ++ src ++ u """ alt=""") ++ alt).
      { rewrite Eb, Eb0. rewrite <- !app_assoc. reflexivity. }
      injection E3 as <-. rewrite Ed. cbn [Z.eqb Z.sub Z.add Z.opp Pos.sub Z.pos_sub h_dis set_h_dis].
      destruct (truthy (n_title d)).
      + exists (u "<img src=""" ++ src ++ u """ alt=""" ++ alt ++ u """ title=""" ++ escape_xml_opt (n_title d) ++ u """ />").
        split.
        * split; cbn [h_lit h_buf h_dis set_h_dis]; [|lia]. rewrite Eb1, <- !app_assoc. reflexivity.
        * split; intros Hz0; [|lia]. rewrite <- (app_nil_r (_ ++ _)).
          apply bal_img; try tauto; [apply escaped_escape_xml_opt|constructor].
      + exists (u "<img src=""" ++ src ++ u """ alt=""" ++ alt ++ u """ />").
        split.
        * split; cbn [h_lit h_buf h_dis set_h_dis]; [|lia]. rewrite Eb1, <- !app_assoc. reflexivity.
        * split; intros Hz0; [|lia]. rewrite <- (app_nil_r (_ ++ _)).
          apply bal_img_no_title; try tauto; constructor.
    - (* nested *)
      apply Z.eqb_neq in Ez. cbn [bind] in E1. injection E1 as <-. cbn [set_h_dis h_dis] in Hk.
      destruct Hk as (alt & [Eb Ed] & [_ Ka]); [lia|]. cbn [set_h_dis h_dis h_buf] in *.
      specialize (Ka ltac:(lia)).
      injection E3 as <-. rewrite Ed. replace (Z.eqb (h_dis st + 1 - 1) 0) with false by lia.
      exists alt. split; [split; cbn [set_h_dis h_buf h_dis]; [exact Eb|lia]|].
      split; intros Hz0; [lia|exact Ka].
  Qed.

  Lemma render_tree : forall t, tree_all node_ok t -> forall anc st st',
    html_events o (events anc t) st = Ok st' -> (0 <= h_dis st)%Z -> step_ok st st'.
  Proof.
    induction t as [d kids IH] using tree_ind'. rewrite tree_all_unfold. intros [Hd Hks] anc st st' H Hz.
    assert (Hk : kids_ok (d :: anc) kids).
    { clear H. revert IH Hks. generalize (d :: anc). clear -Hsb. intros l IH Hks s s' H Hz.
      revert s s' H Hz. induction kids as [|x kids IHk]; intros s s' H Hz.
      - cbn in H. injection H as <-. apply step_refl.
      - inversion IH as [|? ? IHx IHr]; subst. inversion Hks as [|? ? Hx Hr]; subst.
        cbn [flat_map] in H. rewrite html_events_app in H.
        destruct (html_events o (events l x) s) as [s1|] eqn:E; cbn [bind] in H; [|discriminate].
        assert (S1 : step_ok s s1) by (eapply IHx; eauto).
        eapply step_trans; [exact S1|]. eapply IHk; eauto.
        destruct S1 as (out & [_ ->] & _). exact Hz. }
    destruct (is_container (n_t d)) eqn:Hc.
    - destruct (ntype_eqb (n_t d) image) eqn:Ei.
      + apply (render_image d kids anc); auto. destruct (n_t d); try discriminate; reflexivity.
      + apply (render_container d kids anc); auto. intros E. rewrite E in Ei. discriminate.
    - cbn [events] in H. rewrite Hc in H. cbn [html_events] in H.
      destruct (html_node o d anc true st) as [s1|] eqn:E1; cbn [bind] in H; [|discriminate].
      injection H as <-. pose proof Hd as (O1 & O2 & O3 & O4).
      unfold html_node in E1. destruct (n_t d) eqn:Et; try congruence; try (vm_compute in Hc; discriminate Hc).
      + (* thematic_break *) injection E1 as <-. eapply step_trans; [apply step_cr|]. eapply step_trans; [|apply step_cr].
        apply step_void; [cbn; tauto|apply good_attrs_of].
      + (* code_block *)
        unfold h_code_block in E1. injection E1 as <-.
        eapply step_trans; [apply step_cr|]. eapply step_trans; [|apply step_cr].
        apply (step_elem (u "pre") []); [cbn; tauto|apply good_nil|].
        eapply (step_elem (u "code")); [cbn; tauto| |apply step_out].
        apply good_app; [apply good_attrs_of|].
        destruct (if truthy (n_info d) then _ else _) as [|w l]; [constructor|].
        destruct (is_nil w); [constructor|]. apply good_one; [cbn; tauto| |discriminate].
        apply (escaped_app (u "language-")); [apply escaped_plain; reflexivity|apply escaped_escape_xml].
      + (* html_block *)
        unfold h_html_block in E1. destruct (h_html_inline o d (h_cr st)) as [s2|] eqn:E2; cbn [bind] in E1; [|discriminate].
        injection E1 as <-. eapply step_trans; [apply step_cr|]. eapply step_trans; [|apply step_cr].
        eapply step_raw_node; eauto.
      + (* text *) injection E1 as <-. apply step_out.
      + (* softbreak *) injection E1 as <-. destruct Hsb; [apply step_lit_raw|apply step_lit_esc]; auto.
      + (* linebreak *) injection E1 as <-. eapply step_trans; [|apply step_cr].
        apply step_void; [cbn; tauto|apply good_nil].
      + (* code *) unfold h_code in E1. injection E1 as <-.
        apply (step_elem (u "code") []); [cbn; tauto|apply good_nil|]. apply step_out.
      + (* html_inline *) eapply step_raw_node; eauto.
  Qed.

  Lemma render_balanced r ast s r' :
    tree_all node_ok ast -> html_render o r ast = Ok (s, r') -> h_dis r = 0%Z ->
    balanced raw url s /\ h_dis r' = 0%Z.
  Proof.
    intros Hok H Hz. unfold html_render in H.
    destruct (html_events o (walker ast) _) as [st|] eqn:E; cbn [bind] in H; [|discriminate].
    injection H as <- <-.
    destruct (render_tree _ Hok _ _ _ E) as (out & [Eb Ed] & [K _]); [cbn; lia|].
    cbn in Eb, Ed, K. rewrite Eb, Ed. auto.
  Qed.
End Balanced.
