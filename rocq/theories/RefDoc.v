(** * Texts of definitions and references: C25, C26 *)
From Verif Require Import Base Regex Common NormRef Node Inlines Blocks Html Main RegexFacts StrFacts Spec SpecTree SpecSame SpecLines SpecRefs
  TreeFacts CommonFacts LabelFacts StrProp EmphFacts InlineFacts HtmlFacts RenderFacts BlockFacts BlockInv BlockRun LineFacts ParseFacts Sim SimFacts SameHtml DocFacts TextFacts WordFacts
  RefFacts RefMapFacts AfterFacts BlankFacts RefLine RefInline.
From Verif Require RegexLang LeafFacts.
From Coq Require Import ZifyBool ZifyNat ZifyN.

(** ** The texts *)
Lemma ref_text_refers image w tail : ref_text (Refers image w tail) = opening image ++ w ++ 93%N :: tail_text tail.
Proof. unfold ref_text, bracketed. change (u "[") with [91%N]. change (u "]") with [93%N]. change (u "!") with [33%N]. destruct image; cbn [opening app]; rewrite <- ?app_assoc; destruct tail; reflexivity. Qed.
Definition ref_char (c : N) : bool := url_b c || existsb (N.eqb c) [33; 91; 93; 58; 32]%N.
Lemma word_url c : word_char c -> url_char c.
Proof. left. assumption. Qed.
Lemma ref_text_chars i : ref_line_ok i -> forallb ref_char (ref_text i) = true.
Proof.
  assert (W : forall w, Forall url_char w -> forallb ref_char w = true). { intros w H. apply forallb_forall. intros c Hc. rewrite Forall_forall in H. unfold ref_char. rewrite (url_b_spec c (H c Hc)). reflexivity. }
  assert (B : forall w, Forall word_char w -> forallb ref_char (bracketed w) = true). { intros w H. unfold bracketed. rewrite !forallb_app, (W w); [reflexivity|]. eapply Forall_impl; [|exact H]. intros c. apply word_url. }
  destruct i as [w d|image w [[|c l]|]]; cbn [ref_line_ok ref_text]; intros H.
  - destruct H as [(_ & _ & H1) (_ & H2)]. rewrite !forallb_app, (B w), (W d) by assumption. reflexivity.
  - destruct H as (_ & _ & H). rewrite !forallb_app, !B by (assumption || constructor). destruct image; reflexivity.
  - destruct H as [(_ & _ & H) (_ & _ & H')]. rewrite !forallb_app, !B by assumption. destruct image; reflexivity.
  - destruct H as (_ & _ & H). rewrite !forallb_app, !B by assumption. destruct image; reflexivity.
Qed.
Lemma ref_char_facts c : ref_char c = true -> (c < 128)%N /\ c <> 0%N /\ c <> 10%N /\ c <> 13%N /\ plain c = true.
Proof.
  intros H. assert (Hs : (c < 128)%N). { unfold ref_char in H. apply orb_prop in H as [H|H]; [apply url_small, H|]. cbn [existsb] in H. lia. }
  assert (B : below 128 (fun c => negb (ref_char c) || negb (N.eqb c 0) && negb (N.eqb c 10) && negb (N.eqb c 13) && plain c) = true) by (vm_compute; reflexivity).
  pose proof (below_spec _ _ B c Hs) as G. cbv beta in G. rewrite H in G. cbn [negb orb] in G. apply andb_prop in G as [G G4]. apply andb_prop in G as [G G3]. apply andb_prop in G as [G1 G2]. repeat split; [exact Hs| | | |exact G4]; intros ->; discriminate.
Qed.
Lemma ref_text_head i : exists c r, ref_text i = c :: r /\ (c = 91%N \/ c = 33%N).
Proof. destruct i as [w d|[] w tail]; eexists; eexists; (split; [reflexivity|]); auto. Qed.
Lemma last_in (l : str) c : last_opt l = Some c -> In c l.
Proof. revert c. induction l as [|x l IH]; [discriminate|]. intros c. rewrite last_opt_cons. destruct (last_opt l) as [y|]; intros E; injection E as <-; [right; apply IH; reflexivity|left; reflexivity]. Qed.
Lemma bracketed_last a w : last_opt (a ++ bracketed w) = Some 93%N.
Proof. unfold bracketed. rewrite !app_assoc. apply last_opt_snoc. Qed.
Lemma ref_text_last i c : ref_line_ok i -> last_opt (ref_text i) = Some c -> is_space c = false.
Proof.
  destruct i as [w d|image w tail]; cbn [ref_line_ok ref_text].
  - intros [_ (Hne & Hd)]. rewrite !app_assoc, last_opt_app by exact Hne. intros H. apply last_in in H. rewrite Forall_forall in Hd. apply (url_facts c (Hd c H)).
  - intros _. destruct tail as [l|]; [rewrite !app_assoc, bracketed_last|rewrite app_nil_r, bracketed_last]; intros H; injection H as <-; reflexivity.
Qed.
Lemma ref_no_start i : no_start (ref_text i).
Proof.
  destruct (ref_text_head i) as (c & r & -> & Hc). apply no_start_plain; [destruct Hc as [-> | ->]; reflexivity|].
  destruct (re_search reOrderedListMarker (c :: r)) as [m|] eqn:E; [|reflexivity]. exfalso. apply ordered_marker in E as (ds & x & q & E & Hne & Hd & _). destruct ds as [|y ds]; [congruence|]. injection E as <- _. apply Forall_inv in Hd. destruct Hc as [-> | ->]; discriminate Hd.
Qed.
Lemma ref_replace i : ref_line_ok i -> replace_char 0 65533 (ref_text i) = ref_text i.
Proof.
  intros H. apply ref_text_chars in H. unfold replace_char. rewrite <- (map_id (ref_text i)) at 2. apply map_ext_in. intros c Hc. rewrite forallb_forall in H. apply H, ref_char_facts in Hc as (_ & Hc & _). destruct (N.eqb_spec c 0); [congruence|reflexivity].
Qed.
Lemma ref_no_eol i : ref_line_ok i -> no_eol (ref_text i).
Proof. intros H c Hc. apply ref_text_chars in H. rewrite forallb_forall in H. apply H, ref_char_facts in Hc as (_ & _ & H1 & H2 & _). split; assumption. Qed.
Lemma ref_strip i : ref_line_ok i -> strip (ref_text i ++ [LF]) = ref_text i.
Proof.
  intros H. destruct (ref_text_head i) as (c & r & E & Hc). apply strip_line; [rewrite E; discriminate| |intros x Hx; apply (ref_text_last i x H Hx)]. intros x Hx. rewrite E in Hx. injection Hx as <-. destruct Hc as [-> | ->]; reflexivity.
Qed.

(** ** The map *)
Fixpoint defs (l : list ref_line) (rm : refmap_t) : refmap_t :=
  match l with
  | [] => rm
  | Defines w d :: l' => defs l' (add_ref rm (map SpecLines.ascii_lower w) d)
  | _ :: l' => defs l' rm
  end.
Definition uses (l : list ref_line) : list ref_line := filter (fun i => match i with Refers _ _ _ => true | _ => false end) l.
Lemma defs_assoc label : forall l rm, assoc_str (map SpecLines.ascii_lower label) (defs l rm) =
  match assoc_str (map SpecLines.ascii_lower label) rm with Some v => Some v | None => option_map (fun d => (d, [])) (first_dest l label) end.
Proof.
  induction l as [|[w d|image w tail] l IH]; intros rm; cbn [defs first_dest option_map].
  - destruct (assoc_str _ rm); reflexivity.
  - rewrite IH. clear IH. unfold add_ref. destruct (assoc_str (map SpecLines.ascii_lower w) rm) as [v|] eqn:Ew.
    + destruct (assoc_str (map SpecLines.ascii_lower label) rm) as [v'|] eqn:El; [reflexivity|]. unfold same_word. destruct (list_eq_dec _ _ _) as [E|_]; [congruence|reflexivity].
    + rewrite assoc_app. destruct (assoc_str (map SpecLines.ascii_lower label) rm) as [v'|] eqn:El; [reflexivity|]. unfold assoc_str. cbn [find fst]. unfold same_word.
      destruct (list_eq_dec N.eq_dec (map SpecLines.ascii_lower w) (map SpecLines.ascii_lower label)) as [E|E].
      * rewrite E, (proj2 (str_eqb_eq _ _) eq_refl). reflexivity.
      * destruct (str_eqb _ _) eqn:X; [apply str_eqb_eq in X; congruence|reflexivity].
  - apply IH.
Qed.
Lemma defs_keys : forall l rm, Forall ref_line_ok l -> ~ In [] (keys rm) -> ~ In [] (keys (defs l rm)).
Proof.
  induction l as [|[w d|image w tail] l IH]; intros rm H Hk; cbn [defs]; [exact Hk| |apply IH; [exact (Forall_inv_tail H)|exact Hk]].
  apply IH; [exact (Forall_inv_tail H)|]. unfold add_ref. destruct (assoc_str _ rm); [exact Hk|]. unfold keys. rewrite map_app, in_app_iff. intros [X|[X|[]]]; [exact (Hk X)|]. cbn [fst] in X. apply Forall_inv in H. destruct H as [(Hw & _) _]. destruct w; [congruence|discriminate].
Qed.

(** ** The block phase *)
Definition use_block (i : ref_line) (t : tree) : Prop := exists pd, t = T pd [] /\ n_t pd = paragraph /\ n_string_content pd = Some (ref_text i ++ [LF]).
Lemma mark_use l k : Forall2 use_block l k -> Forall2 use_block l (mark_last_blank k).
Proof.
  intros H. destruct k as [|[d kk] k _] using rev_ind; [exact H|]. rewrite mark_last_blank_snoc. apply Forall2_app_inv_r in H as (l1 & l2 & H1 & H2 & ->). apply Forall2_app; [exact H1|].
  inversion H2 as [|x y a b Hx Ha]; subst. inversion Ha; subst. constructor; [|constructor]. destruct Hx as (pd & E & P1 & P2). injection E as -> ->. exists (set_n_last_line_blank true pd). auto.
Qed.
Lemma finalize_content ln p n i content st c found s' rm' : p_stack p = F (para_data n i content) [] :: st ->
  ref_loop (S (length content)) content false (p_ip p) (p_refmap p) = Ok (c, found, s', rm') ->
  exists pd, n_t pd = paragraph /\ n_string_content pd = Some c /\
    finalize_tip ln p = Ok (let p1 := set_p_ip s' (set_p_refmap rm' (set_p_stack st p)) in if found && is_blank c then p1 else attach (T pd []) p1).
Proof.
  intros Es E. unfold finalize_tip. rewrite Es. cbn [f_data n_sourcepos set_n_is_open para_data set_n_string_content new_node of_option bind n_t set_n_sourcepos].
  unfold finalize_paragraph, para_data. cbn [n_string_content set_n_sourcepos set_n_is_open set_n_string_content of_option bind]. unfold strip_refs. cbn [p_ip p_refmap set_p_stack]. rewrite E. cbn [bind f_kids].
  eexists. split; [|split]; [| |reflexivity]; reflexivity.
Qed.
Lemma ref_step i p d k l : ref_line_ok i -> p_stack p = [F d k] -> n_t d = document -> n_sourcepos d <> None -> Forall2 use_block l k ->
  exists p' d' k', incorporate_lines [ref_text i; []] p = Ok p' /\ p_stack p' = [F d' k'] /\ n_t d' = document /\ n_sourcepos d' <> None /\
    Forall2 use_block (l ++ uses [i]) k' /\ p_refmap p' = defs [i] (p_refmap p) /\ p_smart p' = p_smart p.
Proof.
  intros Hi Es Ed Hsp Hk. destruct (ref_text_head i) as (c & r & Et & Hc). cbn [incorporate_lines].
  destruct (para_line (ref_text i) 0 c r p d k Es Ed Hsp) as (p1 & d1 & -> & S1 & D1 & D2 & _ & R1 & M1 & _); [rewrite (ref_replace i Hi); exact Et|lia|destruct Hc as [-> | ->]; reflexivity|rewrite <- Et; apply ref_no_start|]. cbn [bind].
  change (c :: r ++ [LF]) with ((c :: r) ++ [LF]) in S1. rewrite <- Et in S1.
  destruct (blank_closes [] p1 [] _ d1 k S1) as (y & Y1 & Y2 & _ & Y3 & Y4 & _ & Y5 & _ & Y6); [intros x []|left; reflexivity|exact D1|congruence|].
  assert (Hloop : exists c' found s', ref_loop (S (length (ref_text i ++ [LF]))) (ref_text i ++ [LF]) false (p_ip y) (p_refmap y) = Ok (c', found, s', defs [i] (p_refmap y)) /\
    match i with Defines _ _ => found && is_blank c' = true | _ => found = false /\ c' = ref_text i ++ [LF] end).
  { destruct i as [w dd|image w tail].
    - destruct Hi as [Hw Hdd]. assert (El : ref_text (Defines w dd) ++ [LF] = definition_line w dd) by (unfold ref_text, definition_line; rewrite <- !app_assoc; reflexivity). rewrite El.
      destruct (define_line w dd (p_refmap y) (p_ip y) Hw Hdd) as (s' & E). exists [], true, s'. split; [|reflexivity].
      remember (definition_line w dd) as content eqn:Z. assert (Hh : opt_is 91 (peek content 0) = true) by (subst content; reflexivity). assert (Hlen : exists n, length content = S n) by (subst content; eexists; reflexivity). clear Z El.
      destruct Hlen as (n & Hn). rewrite Hn. cbn [ref_loop]. rewrite Hh, E. cbn [bind]. rewrite Hn. change (Nat.eqb (S n) 0) with false. cbv iota. rewrite <- Hn, skipn_all. reflexivity.
    - destruct image.
      + exists (ref_text (Refers true w tail) ++ [LF]), false, (p_ip y). split; [reflexivity|]. split; reflexivity.
      + assert (Hw : plain_word w) by (cbn [ref_line_ok] in Hi; destruct tail as [[|? ?]|]; [exact Hi|exact (proj1 Hi)|exact Hi]).
        assert (El : ref_text (Refers false w tail) ++ [LF] = bracketed w ++ (tail_text tail ++ [LF])) by (unfold ref_text; cbn [app]; rewrite <- app_assoc; reflexivity). rewrite El.
        destruct (not_definition w (tail_text tail ++ [LF]) (p_refmap y) (p_ip y) Hw) as (s' & E). { intros x q X. destruct tail as [t|]; injection X as <- _; discriminate. }
        exists (bracketed w ++ tail_text tail ++ [LF]), false, s'. split; [|split; reflexivity]. cbn [ref_loop]. change (opt_is 91 (peek (bracketed w ++ tail_text tail ++ [LF]) 0)) with true. cbv iota. rewrite E. reflexivity. }
  destruct Hloop as (c' & found & s' & El & Hf).
  destruct (finalize_content (p_line_number y - 1) y _ _ _ _ c' found s' _ (eq_trans Y1 S1) El) as (pd & P1 & P2 & Ef).
  assert (Ecl : exists y1 k1, close_loop (length (p_stack y)) y = Ok y1 /\ p_stack y1 = [F d1 k1] /\ p_blank y1 = true /\ p_refmap y1 = defs [i] (p_refmap y) /\ p_smart y1 = p_smart y /\ Forall2 use_block (l ++ uses [i]) k1).
  { rewrite Y1, S1. cbn [app length close_loop]. rewrite Y1, S1, Y2. cbn [app length Nat.leb]. rewrite Ef. cbn [bind]. destruct i as [w dd|image w tail].
    - rewrite Hf. exists (set_p_ip s' (set_p_refmap (defs [Defines w dd] (p_refmap y)) (set_p_stack [F d1 k] y))), k. cbn [close_loop p_stack p_matched set_p_ip set_p_refmap set_p_stack]. rewrite Y2. cbn [length Nat.leb].
      split; [reflexivity|]. split; [reflexivity|]. split; [exact Y5|]. split; [reflexivity|]. split; [reflexivity|]. cbn [uses filter]. rewrite app_nil_r. exact Hk.
    - destruct Hf as [-> Hf]. cbn [andb].
      exists (attach (T pd []) (set_p_ip s' (set_p_refmap (defs [Refers image w tail] (p_refmap y)) (set_p_stack [F d1 k] y)))), (k ++ [T pd []]).
      unfold attach. cbn [close_loop p_stack p_matched set_p_ip set_p_refmap set_p_stack f_data f_kids]. rewrite Y2. cbn [length Nat.leb].
      split; [reflexivity|]. split; [reflexivity|]. split; [exact Y5|]. split; [reflexivity|]. split; [reflexivity|]. cbn [uses filter]. apply Forall2_app; [exact Hk|]. constructor; [|constructor]. exists pd. rewrite Hf in P2. auto. }
  destruct Ecl as (y1 & k1 & E1 & E2 & E3 & E4 & E5 & E6). destruct (Y6 y1 k1 E1 E2 E3) as (p' & -> & Q1 & _ & Q2 & Q3). cbn [bind].
  exists p', (set_n_last_line_blank true d1), (mark_last_blank k1). split; [reflexivity|]. split; [exact Q1|]. split; [exact D1|]. split; [cbn; congruence|]. split; [apply mark_use, E6|]. split; congruence.
Qed.

Lemma defs_app : forall a b rm, defs (a ++ b) rm = defs b (defs a rm).
Proof. induction a as [|[w d|image w tail] a IH]; intros b rm; cbn [app defs]; [reflexivity|apply IH|apply IH]. Qed.
Definition ref_lines (l : list ref_line) : list str := flat_map (fun i => [ref_text i; []]) l.
Lemma ref_run : forall l p d k l0, Forall ref_line_ok l -> p_stack p = [F d k] -> n_t d = document -> n_sourcepos d <> None -> Forall2 use_block l0 k ->
  exists p' d' k', incorporate_lines (ref_lines l) p = Ok p' /\ p_stack p' = [F d' k'] /\ n_t d' = document /\ n_sourcepos d' <> None /\
    Forall2 use_block (l0 ++ uses l) k' /\ p_refmap p' = defs l (p_refmap p) /\ p_smart p' = p_smart p.
Proof.
  induction l as [|i l IH]; intros p d k l0 Hl Es Ed Hsp Hk.
  - exists p, d, k. cbn [ref_lines flat_map uses filter incorporate_lines defs]. rewrite app_nil_r. auto 10.
  - unfold ref_lines. cbn [flat_map]. rewrite incorporate_app. destruct (ref_step i p d k l0 (Forall_inv Hl) Es Ed Hsp Hk) as (p1 & d1 & k1 & -> & S1 & D1 & P1 & K1 & R1 & M1). cbn [bind].
    destruct (IH p1 d1 k1 _ (Forall_inv_tail Hl) S1 D1 P1 K1) as (p2 & d2 & k2 & E2 & S2 & D2 & P2 & K2 & R2 & M2). exists p2, d2, k2. split; [exact E2|]. split; [exact S2|]. split; [exact D2|]. split; [exact P2|].
    split; [|split; [rewrite R2, R1; change (i :: l) with ([i] ++ l); rewrite defs_app; reflexivity|congruence]]. change (i :: l) with ([i] ++ l). unfold uses in *. rewrite filter_app, app_assoc. exact K2.
Qed.

(** ** The inline phase *)
Definition use_done (rm : refmap_t) (i : ref_line) (t : tree) : Prop := exists pd ks, t = T pd ks /\ n_t pd = paragraph /\
  match i with
  | Defines _ _ => False
  | Refers im w tail =>
      match assoc_str (map SpecLines.ascii_lower (label_of w tail)) rm with
      | Some (d, t) => ks = [ref_node im w d t]
      | None => exists ls, ks = map text_node ls /\ concat ls = ref_text i
      end
  end.
Lemma label_ok im w tail : ref_line_ok (Refers im w tail) -> plain_word w /\ tail_ok tail /\ plain_word (label_of w tail).
Proof. cbn [ref_line_ok]. destruct tail as [[|c l]|]; cbn [label_of tail_ok]; intros H; [auto|split; [apply H|split; apply H]|auto]. Qed.
Lemma use_inlines rm i pd s : match i with Refers _ _ _ => True | _ => False end -> ref_line_ok i -> ~ In [] (keys rm) -> n_t pd = paragraph -> n_string_content pd = Some (ref_text i ++ [LF]) -> ip_refmap s = rm ->
  exists ks s', process_all [T pd []] s = Ok ([T pd ks], s') /\ ip_refmap s' = rm /\ use_done rm i (T pd ks).
Proof.
  intros Hu Hi Hk Hp Hc Hr. rewrite (process_para pd _ s (or_introl Hp) Hc). unfold parseInlines. rewrite (ref_strip i Hi), Hr. destruct i as [|im w tail]; [destruct Hu|].
  destruct (label_ok im w tail Hi) as (W1 & W2 & W3). rewrite (ref_text_refers im w tail). destruct (ref_inline im w tail rm (ip_smart s) W1 W2 Hk) as (st' & -> & Hd & Hrm & Hm). cbn [bind]. rewrite Hd, emphasis_none. cbn [bind].
  exists (map snd (ip_kids st')). eexists. split; [reflexivity|]. split; [|exists pd, (map snd (ip_kids st')); split; [reflexivity|]; split; [exact Hp|]].
  - exact Hrm.
  - unfold key in Hm. change (bracketed (label_of w tail)) with (in_brackets (label_of w tail)) in Hm. rewrite (word_key _ W3) in Hm. destruct (assoc_str _ rm) as [[d t]|]; [exact Hm|]. rewrite (ref_text_refers im w tail). exact Hm.
Qed.
Lemma uses_inlines rm : ~ In [] (keys rm) -> forall l k, Forall2 use_block (uses l) k -> Forall ref_line_ok l -> forall s, ip_refmap s = rm ->
  exists k' s', process_all k s = Ok (k', s') /\ Forall2 (use_done rm) (uses l) k'.
Proof.
  intros Hk l. induction l as [|i l IH]; intros k H Hl s Hr.
  - inversion H; subst. exists [], s. split; [reflexivity|constructor].
  - unfold uses in *. cbn [filter] in *. destruct i as [w d|im w tail]; [apply IH; [exact H|exact (Forall_inv_tail Hl)|exact Hr]|].
    inversion H as [|x t a k0 Hx Ha]; subst. destruct Hx as (pd & -> & P1 & P2).
    destruct (use_inlines (ip_refmap s) (Refers im w tail) pd s I (Forall_inv Hl) Hk P1 P2 eq_refl) as (ks & s1 & E1 & R1 & U1).
    destruct (IH k0 Ha (Forall_inv_tail Hl) s1 R1) as (k' & s2 & E2 & U2). exists (T pd ks :: k'), s2. split; [|constructor; assumption].
    cbn [process_all] in E1 |- *. destruct (process_inlines (T pd []) s) as [[t1 s1']|e]; cbn [bind] in E1 |- *; [|discriminate]. apply Ok_inj in E1. injection E1 as -> ->. rewrite E2. reflexivity.
Qed.

(** ** HTML *)
Fixpoint needs_colon (r : regex) : bool :=
  match r with
  | RChr (CS false _ [CRange a b]) => N.eqb a 58 && N.eqb b 58
  | RSeq a b => needs_colon a || needs_colon b
  | RAlt a b => needs_colon a && needs_colon b
  | _ => false
  end.
Lemma needs_colon_L r : needs_colon r = true -> forall p g q, RegexLang.L r p g q -> In 58%N g.
Proof.
  induction r as [|cs|a IHa b IHb|a IHa b IHb|gr mn mx a IHa|n a IHa| | | |neg a IHa]; cbn [needs_colon]; intros Hn p g q; try discriminate; cbn [RegexLang.L].
  - intros (c & -> & Hc). left. destruct cs as [[] ic its]; [discriminate|]. destruct its as [|[x y| | |] [|? ?]]; try discriminate.
    apply andb_prop in Hn as [Hx Hy]. apply N.eqb_eq in Hx as ->. apply N.eqb_eq in Hy as ->.
    destruct ic; [rewrite icase_nonletter in Hc by lia; apply N.eqb_eq; exact Hc|]. cm_unfold_in Hc. unfold in_range in Hc. lia.
  - intros (g1 & g2 & -> & H1 & H2). apply in_or_app. apply orb_prop in Hn as [Hn|Hn]; eauto.
  - apply andb_prop in Hn as [H1 H2]. intros [H|H]; eauto.
Qed.
Lemma no_colon_safe o d : ~ In 58%N d -> unsafe_dest o (Some d) = Ok false.
Proof.
  intros H. unfold unsafe_dest. destruct (ho_safe o); [|reflexivity]. cbn [of_option bind]. f_equal. unfold potentially_unsafe. destruct (re_test reUnsafeProtocol d) eqn:E; [|reflexivity]. exfalso.
  apply RegexLang.re_test_L in E as (p & g & q & -> & HL); [|vm_compute; reflexivity]. apply needs_colon_L in HL; [|vm_compute; reflexivity]. apply H. apply in_or_app. right. apply in_or_app. left. exact HL.
Qed.
Definition ok_map (rm : refmap_t) : Prop := forall k d t, assoc_str k rm = Some (d, t) -> t = [] /\ url d.
Lemma defs_ok : forall l rm, Forall ref_line_ok l -> ok_map rm -> ok_map (defs l rm).
Proof.
  induction l as [|[w d|im w tail] l IH]; intros rm Hl Hm; cbn [defs]; [exact Hm| |apply IH; [exact (Forall_inv_tail Hl)|exact Hm]].
  apply IH; [exact (Forall_inv_tail Hl)|]. unfold add_ref. destruct (assoc_str _ rm) eqn:E; [exact Hm|]. intros k d' t. rewrite assoc_app. destruct (assoc_str k rm) as [v|] eqn:Ek; [intros X; injection X as ->; exact (Hm _ _ _ Ek)|].
  unfold assoc_str. cbn [find fst]. destruct (str_eqb _ _); [|discriminate]. cbn [snd]. intros X. injection X as <- <-. split; [reflexivity|]. apply (Forall_inv Hl).
Qed.
Lemma plain_ref i : ref_line_ok i -> escape_xml (ref_text i) = ref_text i.
Proof. intros H. apply escape_xml_plain. apply ref_text_chars in H. rewrite forallb_forall in *. intros c Hc. apply (ref_char_facts c (H c Hc)). Qed.
Lemma plain_url d : url d -> escape_xml d = d /\ ~ In 58%N d.
Proof.
  intros [_ H]. rewrite Forall_forall in H. split.
  - apply escape_xml_plain. apply forallb_forall. intros c Hc. apply ref_char_facts. unfold ref_char. rewrite (url_b_spec c (H c Hc)). reflexivity.
  - intros X. apply H, url_facts in X as (_ & _ & _ & N). apply N. cbn. auto 20.
Qed.
Lemma plain_word_xml w : plain_word w -> escape_xml w = w.
Proof. intros (Hne & _ & H). apply plain_url. split; [exact Hne|]. eapply Forall_impl; [|exact H]. intros c. apply word_url. Qed.
Lemma use_html rm o dd i t st : ho_sourcepos o = false -> n_t dd = document -> ref_line_ok i -> ok_map rm -> use_done rm i t -> h_last st = [LF] -> h_dis st = 0%Z ->
  html_events o (events [dd] t) st = Ok (HS (h_buf st ++ ref_html (fun l => option_map fst (assoc_str (map SpecLines.ascii_lower l) rm)) i) [LF] 0).
Proof.
  intros Ho Ed Hi Hm (pd & ks & -> & Hp & Hu) Hl Hd. destruct i as [w d|im w tail]; [destruct Hu|]. destruct (label_ok im w tail Hi) as (W1 & _ & _).
  cbn [events]. rewrite Hp. change (is_container paragraph) with true. cbv iota. cbn [html_events].
  assert (En : forall e st, html_node o pd [dd] e st = Ok (if e then h_tag (u "p") [] false (h_cr st) else h_cr (h_tag0 (u "/p") st))).
  { intros e x. unfold html_node. rewrite Hp. unfold h_paragraph, attrs_of. rewrite Ho. reflexivity. }
  rewrite En. cbn [bind]. rewrite html_events_app. destruct st as [B la di]. cbn [h_last h_dis h_buf] in *. subst la di.
  change (h_tag (u "p") [] false (h_cr (HS B [LF] 0))) with (HS (B ++ u "<p>") (u ">") 0).
  set (body := match option_map fst (assoc_str (map SpecLines.ascii_lower (label_of w tail)) rm) with Some d => if im then u "<img src=""" ++ d ++ u """ alt=""" ++ w ++ u """ />" else u "<a href=""" ++ d ++ u """>" ++ w ++ u "</a>" | None => ref_text (Refers im w tail) end).
  assert (Hb : exists la, html_events o (flat_map (events [pd; dd]) ks) (HS (B ++ u "<p>") (u ">") 0) = Ok (HS (B ++ u "<p>" ++ body) la 0)).
  { unfold body. destruct (assoc_str _ rm) as [[d t]|] eqn:Ea; cbn [option_map fst].
    - destruct (Hm _ _ _ Ea) as [-> Hud]. destruct (plain_url d Hud) as [X1 X2]. pose proof (no_colon_safe o d X2) as X3. subst ks. unfold ref_node. cbn [flat_map]. rewrite app_nil_r. destruct im.
      + cbn [events n_t set_n_title set_n_destination new_node]. change (is_container image) with true. cbv iota. cbn [html_events flat_map app events text_node text_data n_t set_n_literal new_node].
        change (is_container text) with false. cbv iota. cbn [app html_events]. unfold html_node at 1. cbn [n_t set_n_title set_n_destination new_node]. unfold h_image at 1. cbn [h_dis]. change (Z.eqb 0 0) with true. cbv iota.
        cbn [n_destination set_n_title set_n_destination]. rewrite X3. cbn [bind]. unfold html_node at 1. cbn [n_t text_data set_n_literal new_node n_literal bind]. unfold html_node. cbn [n_t set_n_title set_n_destination new_node].
        unfold h_image. cbn [h_dis set_h_dis h_out h_lit]. change (Z.eqb (0 + 1 - 1) 0) with true. cbv iota. cbn [bind n_title set_n_title truthy]. cbn [truthy is_nil negb]. unfold h_out, h_lit, set_h_dis. cbn [h_buf h_dis escape_xml_opt]. rewrite X1, (plain_word_xml w W1). eexists. change (0 + 1 - 1)%Z with 0%Z. rewrite <- !app_assoc. reflexivity.
      + cbn [events n_t set_n_title set_n_destination new_node]. change (is_container link) with true. cbv iota. cbn [html_events flat_map app events text_node text_data n_t set_n_literal new_node].
        change (is_container text) with false. cbv iota. cbn [app html_events]. unfold html_node at 1. cbn [n_t set_n_title set_n_destination new_node]. unfold h_link at 1. unfold attrs_of at 1. rewrite Ho.
        cbn [n_destination set_n_title set_n_destination]. rewrite X3. cbn [bind]. unfold html_node at 1. cbn [n_t text_data set_n_literal new_node n_literal bind]. unfold html_node. cbn [n_t set_n_title set_n_destination new_node].
        unfold h_link. cbn [bind n_title set_n_title truthy is_nil negb app]. unfold h_tag0, h_tag, h_out, h_lit. cbn [h_dis h_buf escape_xml_opt]. change (Z.ltb 0 0) with false. cbv iota. cbn [h_dis h_buf]. change (Z.ltb 0 0) with false. cbv iota. unfold attr_text. cbn [flat_map fst snd]. rewrite X1, (plain_word_xml w W1). eexists. cbn [app]. rewrite <- !app_assoc. reflexivity.
    - destruct Hu as (ls & -> & Hls). destruct (texts_html o [pd; dd] ls (HS (B ++ u "<p>") (u ">") 0)) as (la & ->). exists la. cbn [h_buf h_dis]. rewrite Hls, (plain_ref _ Hi), <- app_assoc. reflexivity. }
  destruct Hb as (la & ->). cbn [bind html_events]. rewrite En. cbn [bind]. unfold h_tag0, h_tag. cbn [h_dis]. change (Z.ltb 0 0) with false. cbv iota. unfold h_cr. cbn [h_last]. change (str_eqb (u ">") [LF]) with false. cbv iota. unfold h_lit. cbn [h_buf flat_map h_dis].
  unfold ref_html. fold body. rewrite <- !app_assoc. reflexivity.
Qed.

Theorem refs_html smart o l : ho_sourcepos o = false -> Forall ref_line_ok l -> md_to_html smart o (ref_doc l) = Ok (flat_map (ref_html (first_dest l)) l).
Proof.
  intros Ho Hl. destruct l as [|i0 l0]; [apply (blank_html smart o []); constructor; [intros c []|constructor]|]. remember (i0 :: l0) as l eqn:Z. assert (Hne : ref_lines l <> []) by (rewrite Z; discriminate). clear Z.
  assert (Hd : ref_doc l = flat_map (fun x => x ++ [10%N]) (ref_lines l)). { unfold ref_doc, ref_lines. clear. induction l as [|i l IH]; [reflexivity|]. cbn [flat_map app]. rewrite IH, <- !app_assoc. reflexivity. }
  assert (Hel : Forall no_eol (ref_lines l)). { unfold ref_lines. clear - Hl. induction Hl as [|i l Hi _ IH]; [constructor|]. cbn [flat_map app]. constructor; [apply ref_no_eol, Hi|]. constructor; [intros c []|exact IH]. }
  unfold md_to_html. change (parse_doc smart ?t) with (result (parse (new_parser smart) t)). rewrite parse_finish, input_lines_text, Hd, text_lines_lines by assumption.
  destruct (ref_run l (reset (new_parser smart)) (f_data doc_frame) [] [] Hl eq_refl eq_refl ltac:(discriminate) (List.Forall2_nil _)) as (p1 & d1 & k1 & -> & S1 & D1 & P1 & K1 & R1 & M1). cbn [bind].
  destruct (LeafFacts.finish_doc (length (ref_lines l)) p1 d1 k1 S1 D1 P1) as (d' & s & E1 & E2 & _ & ->).
  change (p_refmap (reset (new_parser smart))) with (@nil (str * (str * str))) in R1. set (rm := defs l []) in *.
  destruct (uses_inlines rm (defs_keys l [] Hl (fun X => X)) l k1 K1 Hl s ltac:(congruence)) as (k' & s' & -> & U). cbn [bind].
  assert (Hm : ok_map rm) by (apply defs_ok; [exact Hl|intros k d t X; discriminate X]).
  unfold render_html. rewrite html_document by exact E1. unfold new_html. cbn [h_dis].
  assert (G : forall l k' B, Forall ref_line_ok l -> Forall2 (use_done rm) (uses l) k' -> html_events o (flat_map (events [d']) k') (HS B [LF] 0) = Ok (HS (B ++ flat_map (ref_html (fun x => option_map fst (assoc_str (map SpecLines.ascii_lower x) rm))) l) [LF] 0)).
  { clearbody rm. clear - Ho E1 Hm. intros l. induction l as [|i l IH]; intros k' B Hl U.
    - inversion U; subst. cbn [flat_map html_events]. rewrite app_nil_r. reflexivity.
    - unfold uses in *. cbn [filter flat_map] in *. destruct i as [w d|im w tail]; [apply IH; [exact (Forall_inv_tail Hl)|exact U]|]. inversion U as [|x t a b Hx Ha]; subst. cbn [flat_map]. rewrite html_events_app.
      rewrite (use_html rm o d' (Refers im w tail) t (HS B [LF] 0) Ho E1 (Forall_inv Hl) Hm Hx eq_refl eq_refl). cbn [bind h_buf]. rewrite (IH b _ (Forall_inv_tail Hl) Ha), <- app_assoc. reflexivity. }
  rewrite (G l k' [] Hl U). cbn [bind app h_buf]. f_equal. clear - rm. 
  assert (X : forall x, option_map fst (assoc_str (map SpecLines.ascii_lower x) rm) = first_dest l x). { intros x. unfold rm. rewrite defs_assoc. change (assoc_str _ []) with (@None (str * str)). cbv iota. destruct (first_dest l x); reflexivity. }
  apply flat_map_ext. intros i. unfold ref_html. destruct i as [w d|im w tail]; [reflexivity|]. rewrite X. reflexivity.
Qed.
Lemma first_dest_app label : forall a b, first_dest (a ++ b) label = match first_dest a label with Some d => Some d | None => first_dest b label end.
Proof. induction a as [|[w d|im w tail] a IH]; intros b; cbn [app first_dest]; [reflexivity| |apply IH]. destruct (same_word w label); [reflexivity|apply IH]. Qed.
Lemma same_word_first a label : same_word a label = true -> forall l, first_dest l a = first_dest l label.
Proof.
  intros H l. unfold same_word in H. destruct (list_eq_dec N.eq_dec (map ascii_lower a) (map ascii_lower label)) as [E|]; [|discriminate]. clear H. induction l as [|[w d|im w tail] l IH]; cbn [first_dest]; [reflexivity| |exact IH].
  rewrite IH. unfold same_word. rewrite E. reflexivity.
Qed.
Theorem move_definition smart o l1 l2 label dest : ho_sourcepos o = false -> Forall ref_line_ok (l1 ++ Defines label dest :: l2) -> first_dest (l1 ++ l2) label = None ->
  md_to_html smart o (ref_doc (l1 ++ Defines label dest :: l2)) = md_to_html smart o (ref_doc (l1 ++ l2 ++ [Defines label dest])).
Proof.
  intros Ho Hl Hn. rewrite refs_html by assumption. rewrite refs_html; [|exact Ho|]. 2:{ rewrite !Forall_app in *. destruct Hl as [H1 H2]. inversion H2; subst. auto. }
  f_equal. assert (E : forall x, first_dest (l1 ++ Defines label dest :: l2) x = first_dest (l1 ++ l2 ++ [Defines label dest]) x).
  { intros x. rewrite !first_dest_app in *. cbn [first_dest]. destruct (same_word label x) eqn:Ex.
    - rewrite <- !(same_word_first label x Ex). destruct (first_dest l1 label); [discriminate|]. rewrite Hn. reflexivity.
    - destruct (first_dest l1 x); [reflexivity|]. destruct (first_dest l2 x); reflexivity. }
  assert (Ef : forall i, ref_html (first_dest (l1 ++ Defines label dest :: l2)) i = ref_html (first_dest (l1 ++ l2 ++ [Defines label dest])) i) by (intros i; unfold ref_html; destruct i; [reflexivity|rewrite E; reflexivity]).
  rewrite (flat_map_ext _ _ Ef). rewrite !flat_map_app. cbn [flat_map]. change (ref_html _ (Defines label dest)) with (@nil N). rewrite !app_nil_r. reflexivity.
Qed.
