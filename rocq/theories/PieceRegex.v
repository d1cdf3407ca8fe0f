(** * What the patterns for references to characters, addresses and tags match: C53 *)
From Verif Require Import Base Regex Common NormRef Node Inlines Blocks RegexFacts StrFacts Spec SpecLines SpecRefs SpecPieces
  CommonFacts StrProp HtmlFacts TextFacts AngleFacts RefLine.
From Verif Require Import RegexLang.
From Coq Require Import ZifyBool ZifyNat ZifyN.

(** ** Matches that cannot be anything else *)
Lemma ip_match_only r r' s g q : r = RSeq RBol r' -> good r' = true -> skipn (ip_pos s) (ip_subject s) = g ++ q -> L r' None g q ->
  (forall g' q', g ++ q = g' ++ q' -> L r' None g' q' -> g' = g) -> ip_match r s = Some (g, ip_adv (length g) s).
Proof.
  intros -> Hg E HL Hu. unfold ip_match. rewrite E, re_search_bol.
  destruct (match_at_exists r' None g q Hg HL) as ([[g1 a] caps] & Em). rewrite Em. apply match_at_L in Em as [Ea HL']; [|exact Hg]. pose proof (Hu g1 a Ea HL') as ->.
  unfold rm_end. cbn [rm_group rm_before length]. reflexivity.
Qed.
Lemma ip_match_none r r' s q : r = RSeq RBol r' -> good r' = true -> skipn (ip_pos s) (ip_subject s) = q ->
  (forall g' q', q = g' ++ q' -> ~ L r' None g' q') -> ip_match r s = None.
Proof.
  intros -> Hg E Hu. unfold ip_match. rewrite E, re_search_bol. rewrite (proj2 (match_at_none_L r' None q Hg) Hu). reflexivity.
Qed.
(** ** Texts that end with their only [c] *)
Definition only (c : N) (cs : cset) : bool :=
  match cs with CS false ic [CRange x y] => N.eqb x c && N.eqb y c && (negb ic || N.ltb c 65 || (N.ltb 90 c && N.ltb c 97) || (N.ltb 122 c && N.ltb c 128)) | _ => false end.
Lemma only_spec c cs x : only c cs = true -> cmatch cs x = true -> x = c.
Proof.
  destruct cs as [[|] ic [|[a b| | | ] [|? ?]]]; cbn [only]; try discriminate. intros H Hx. apply andb_prop in H as [H H2]. apply andb_prop in H as [H0 H1]. apply N.eqb_eq in H0, H1. subst a b.
  destruct ic; [apply chr_ic in Hx; [exact Hx|lia]|apply chr_plain in Hx; exact Hx].
Qed.
Fixpoint closes (c : N) (r : regex) : bool :=
  match r with
  | RChr cs => only c cs
  | RSeq a b => never c a && closes c b
  | RAlt a b => closes c a && closes c b
  | RGrp _ a => closes c a
  | _ => false
  end.
Lemma closes_L c r : closes c r = true -> forall p g q, L r p g q -> exists x, g = x ++ [c] /\ ~ In c x.
Proof.
  induction r as [|cs|a IHa b IHb|a IHa b IHb|gr mn mx a IHa|n a IHa| | | |neg a IHa]; cbn [closes L]; intros Hc p g0 q H; try discriminate.
  - destruct H as (x & -> & Hx). rewrite (only_spec c cs x Hc Hx). exists []. split; [reflexivity|intros []].
  - apply andb_prop in Hc as [N1 N2]. destruct H as (g1 & g2 & -> & H1 & H2). destruct (IHb N2 _ _ _ H2) as (x & -> & Hx). exists (g1 ++ x). split; [apply app_assoc|].
    rewrite in_app_iff. intros [X|X]; [exact (never_in c a N1 _ _ _ H1 X)|exact (Hx X)].
  - apply andb_prop in Hc as [N1 N2]. destruct H as [H|H]; eauto.
  - eauto.
Qed.
Lemma cut_at (c : N) : forall a b x y, a ++ c :: x = b ++ c :: y -> ~ In c a -> ~ In c b -> a = b.
Proof.
  induction a as [|d a IH]; intros b x y E Ha Hb; destruct b as [|e b]; [reflexivity|injection E as <- _; destruct Hb; left; reflexivity|injection E as -> _; destruct Ha; left; reflexivity|].
  injection E as <- E. f_equal. eapply IH; [exact E| |]; intros X; [apply Ha|apply Hb]; right; exact X.
Qed.
Lemma closes_only c r g q g' q' p : closes c r = true -> L r p g q -> L r p g' q' -> g ++ q = g' ++ q' -> g' = g.
Proof.
  intros Hc H1 H2 E. destruct (closes_L c r Hc _ _ _ H1) as (x & -> & Hx). destruct (closes_L c r Hc _ _ _ H2) as (y & -> & Hy).
  rewrite <- !app_assoc in E. cbn [app] in E. rewrite (cut_at c x y _ _ E Hx Hy). reflexivity.
Qed.
(** [x] comes before [y] on the left, [y] before [x] on the right *)
Lemma cross (x y : N) : forall a b s t, a ++ x :: s = b ++ y :: t -> ~ In y a -> ~ In x b -> x <> y -> False.
Proof.
  induction a as [|d a IH]; intros b s t E Ha Hb Hn; destruct b as [|e b]; [injection E as -> _; congruence|injection E as <- _; apply Hb; left; reflexivity|injection E as -> _; apply Ha; left; reflexivity|].
  injection E as <- E. eapply IH; [exact E| | |exact Hn]; intros X; [apply Ha|apply Hb]; right; exact X.
Qed.
(** ** Tags end at the first angle bracket outside quotation marks *)
Definition qstep (st : option N) (c : N) : option N :=
  match st with None => if N.eqb c 34 || N.eqb c 39 then Some c else None | Some m => if N.eqb c m then None else Some m end.
Definition qrun (st : option N) (s : str) : option N := fold_left qstep s st.
Definition quiet (g : str) : Prop := qrun None g = None /\ forall a b, g = a ++ 62%N :: b -> qrun None a <> None.
Lemma qrun_app st a b : qrun st (a ++ b) = qrun (qrun st a) b.
Proof. apply fold_left_app. Qed.
Lemma quiet_nil : quiet [].
Proof. split; [reflexivity|]. intros a b E. destruct a; discriminate. Qed.
Lemma quiet_app a b : quiet a -> quiet b -> quiet (a ++ b).
Proof.
  intros [A1 A2] [B1 B2]. split; [rewrite qrun_app, A1; exact B1|]. intros x y E. apply app_split in E as (z & [(Z1 & Z2)|(Z1 & Z2)]).
  - destruct z as [|c z]; [cbn [app] in Z2|].
    + rewrite app_nil_r in Z1. subst x. rewrite A1. exfalso. exact (B2 [] y (eq_sym Z2) eq_refl).
    + injection Z2 as <- Z2. apply (A2 x z). exact Z1.
  - subst x. rewrite qrun_app, A1. apply (B2 z y). exact Z2.
Qed.
Lemma quiet_plain g : ~ In 34%N g -> ~ In 39%N g -> ~ In 62%N g -> quiet g.
Proof.
  intros H1 H2 H3. split.
  - clear H3. induction g as [|c g IH]; [reflexivity|]. unfold qrun. cbn [fold_left qstep]. destruct (N.eqb_spec c 34) as [->|]; [destruct H1; left; reflexivity|]. destruct (N.eqb_spec c 39) as [->|]; [destruct H2; left; reflexivity|].
    cbn [orb]. apply IH; intros X; [apply H1|apply H2]; right; exact X.
  - intros a b ->. exfalso. apply H3, in_or_app. right. left. reflexivity.
Qed.
Lemma qrun_in m v : ~ In m v -> qrun (Some m) v = Some m.
Proof. induction v as [|c v IH]; intros H; [reflexivity|]. unfold qrun. cbn [fold_left qstep]. destruct (N.eqb_spec c m) as [->|]; [destruct H; left; reflexivity|]. apply IH. intros X. apply H. right. exact X. Qed.
Lemma quiet_quoted m v : m = 34%N \/ m = 39%N -> ~ In m v -> quiet (m :: v ++ [m]).
Proof.
  intros Hm Hv. assert (E0 : qrun None [m] = Some m) by (unfold qrun; cbn [fold_left qstep]; destruct Hm as [-> | ->]; reflexivity).
  change (m :: v ++ [m]) with ([m] ++ v ++ [m]). split.
  - rewrite !qrun_app, E0, (qrun_in m v Hv). unfold qrun. cbn [fold_left qstep]. rewrite N.eqb_refl. reflexivity.
  - intros a b E. destruct a as [|c a]; [cbn [app] in E; injection E as E _; destruct Hm; lia|]. cbn [app] in E. injection E as <- E.
    change (m :: a) with ([m] ++ a). rewrite qrun_app, E0. apply app_split in E as (z & [(Z1 & Z2)|(Z1 & Z2)]).
    + rewrite qrun_in; [discriminate|]. intros X. apply Hv. rewrite Z1. apply in_or_app. left. exact X.
    + destruct z as [|d z]; [|injection Z2 as _ Z2; destruct z; discriminate]. rewrite app_nil_r in Z1. subst a. rewrite qrun_in by exact Hv. discriminate.
Qed.
Definition quoted (r : regex) : bool :=
  match r with RSeq (RChr a) (RSeq (RRep _ _ _ b) (RChr c)) => existsb (fun m => only m a && never m b && only m c) [34; 39]%N | _ => false end.
Fixpoint calm (r : regex) : bool :=
  (never 34 r && never 39 r && never 62 r) || quoted r ||
  match r with
  | RSeq a b | RAlt a b => calm a && calm b
  | RRep _ _ _ a | RGrp _ a => calm a
  | _ => false
  end.
Lemma quiet_rep (B : option N -> str -> str -> Prop) : (forall p g q, B p g q -> quiet g) -> forall n p g q, Lrep B n p g q -> quiet g.
Proof. intros H. induction n as [|n IH]; intros p g q; cbn [Lrep]; [intros ->; apply quiet_nil|]. intros (g1 & g2 & -> & H1 & H2). apply quiet_app; eauto. Qed.
Lemma quoted_L r : quoted r = true -> forall p g q, L r p g q -> quiet g.
Proof.
  destruct r as [|cs|a b|a b|gr mn mx a|n a| | | |neg a]; try discriminate. destruct a; try discriminate. destruct b as [| |b1 b2| | | | | | |]; try discriminate. destruct b1 as [| | | |gr mn mx a| | | | |]; try discriminate. destruct b2; try discriminate.
  cbn [quoted L]. intros H p g q (g1 & g2 & -> & (x & -> & Hx) & g3 & g4 & -> & (k & _ & _ & Hk) & (y & -> & Hy)).
  apply existsb_exists in H as (m & Hm & H). apply andb_prop in H as [H H3]. apply andb_prop in H as [H1 H2]. rewrite (only_spec m _ x H1 Hx), (only_spec m _ y H3 Hy). cbn [app].
  apply quiet_quoted; [destruct Hm as [<-|[<-|[]]]; auto|]. eapply never_rep; [|exact Hk]. intros p' g' q'. apply never_in, H2.
Qed.
Lemma calm_L r : calm r = true -> forall p g q, L r p g q -> quiet g.
Proof.
  induction r as [|cs|a IHa b IHb|a IHa b IHb|gr mn mx a IHa|n a IHa| | | |neg a IHa]; cbn [calm]; intros Hc p g q H; apply orb_prop in Hc as [Hc|Hc];
  try (apply orb_prop in Hc as [Hc|Hc]; [apply andb_prop in Hc as [Hc N3]; apply andb_prop in Hc as [N1 N2]; apply quiet_plain; (eapply never_in; [|exact H]; assumption)|exact (quoted_L _ Hc p g q H)]); try discriminate; cbn [L] in H.
  - apply andb_prop in Hc as [N1 N2]. destruct H as (g1 & g2 & -> & H1 & H2). apply quiet_app; eauto.
  - apply andb_prop in Hc as [N1 N2]. destruct H as [H|H]; eauto.
  - destruct H as (k & _ & _ & H). eapply quiet_rep; [|exact H]. intros. eapply IHa; eauto.
  - eauto.
Qed.
Fixpoint tag_end (r : regex) : bool :=
  match r with RChr cs => only 62 cs | RSeq a b => calm a && tag_end b | RGrp _ a => tag_end a | _ => false end.
Lemma tag_end_L r : tag_end r = true -> forall p g q, L r p g q -> exists x, g = x ++ [62%N] /\ quiet x.
Proof.
  induction r as [|cs|a IHa b IHb|a IHa b IHb|gr mn mx a IHa|n a IHa| | | |neg a IHa]; cbn [tag_end L]; intros Hc p g0 q H; try discriminate.
  - destruct H as (x & -> & Hx). rewrite (only_spec 62 cs x Hc Hx). exists []. split; [reflexivity|apply quiet_nil].
  - apply andb_prop in Hc as [N1 N2]. destruct H as (g1 & g2 & -> & H1 & H2). destruct (IHb N2 _ _ _ H2) as (x & -> & Hx). exists (g1 ++ x). split; [apply app_assoc|]. apply quiet_app; [exact (calm_L a N1 _ _ _ H1)|exact Hx].
  - eauto.
Qed.
Lemma tag_only r g q g' q' p : tag_end r = true -> L r p g q -> L r p g' q' -> g ++ q = g' ++ q' -> g' = g.
Proof.
  intros Hc H1 H2 E. destruct (tag_end_L r Hc _ _ _ H1) as (x & -> & [X1 X2]). destruct (tag_end_L r Hc _ _ _ H2) as (y & -> & [Y1 Y2]).
  rewrite <- !app_assoc in E. cbn [app] in E. assert (x = y) as ->; [|reflexivity]. apply app_split in E as (z & [(Z1 & Z2)|(Z1 & Z2)]).
  - destruct z as [|c z]; [rewrite app_nil_r in Z1; exact Z1|]. injection Z2 as <- Z2. destruct (X2 y z Z1 Y1).
  - destruct z as [|c z]; [rewrite app_nil_r in Z1; exact (eq_sym Z1)|]. injection Z2 as <- Z2. destruct (Y2 x z Z1 X1).
Qed.
