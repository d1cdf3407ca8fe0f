(** * Splitting texts into lines (C15, C16, C45) *)
From Verif Require Import Base Regex Common Node Blocks Main Spec SpecSame RegexFacts StrFacts StrProp InlineFacts BlockFacts BlockRun.
From Coq Require Import ZifyBool ZifyNat ZifyN.

Lemma str_ind2 (P : str -> Prop) : P [] -> (forall c, P [c]) -> (forall c d r, P r -> P (d :: r) -> P (c :: d :: r)) -> forall s, P s.
Proof.
  intros H0 H1 H2 s. assert (G : P s /\ forall c, P (c :: s)); [|apply G]. induction s as [|c s [IH1 IH2]]; [auto|]. split; [apply IH2|]. intros d. apply H2; [exact IH1|apply IH2].
Qed.
Lemma split_eol_cons c r : c <> 10%N -> c <> 13%N -> exists l ls, split_eol r = l :: ls /\ split_eol (c :: r) = (c :: l) :: ls.
Proof.
  intros H1 H2. cbn [split_eol]. destruct (N.eqb_spec c 10); [congruence|]. destruct (N.eqb_spec c 13); [congruence|].
  destruct (split_eol r) as [|l ls] eqn:E; [destruct (split_eol_ne _ E)|]. eauto.
Qed.
Lemma split_eol_lf r : split_eol (10%N :: r) = [] :: split_eol r.
Proof. reflexivity. Qed.
Lemma split_eol_crlf r : split_eol (13%N :: 10%N :: r) = [] :: split_eol r.
Proof. reflexivity. Qed.
Lemma split_eol_cr r : hd_error r <> Some 10%N -> split_eol (13%N :: r) = [] :: split_eol r.
Proof. intros H. destruct r as [|d r]; [reflexivity|]. cbn [split_eol]. change (N.eqb 13 10) with false. change (N.eqb 13 13) with true. cbv iota. destruct (N.eqb_spec d 10); [subst; cbn in H; congruence|reflexivity]. Qed.
Lemma split_eol_no_eol s : Forall no_eol (split_eol s).
Proof.
  assert (Hn : no_eol []) by (intros c []).
  assert (Hc : forall c l, c <> 10%N -> c <> 13%N -> no_eol l -> no_eol (c :: l)) by (intros c l H1 H2 H3 x [->|H]; auto).
  induction s as [|c|c d r IH1 IH2] using str_ind2.
  - constructor; [exact Hn|constructor].
  - cbn [split_eol]. destruct (N.eqb_spec c 10); [|destruct (N.eqb_spec c 13)]; [apply Forall_cons; [exact Hn|apply Forall_cons; [exact Hn|apply Forall_nil]]..|].
    apply Forall_cons; [apply Hc; auto|apply Forall_nil].
  - destruct (N.eq_dec c 10) as [->|C1]; [rewrite split_eol_lf; constructor; assumption|]. destruct (N.eq_dec c 13) as [->|C2].
    + destruct (N.eq_dec d 10) as [->|D]; [rewrite split_eol_crlf; constructor; assumption|]. rewrite split_eol_cr by (cbn; congruence). constructor; assumption.
    + destruct (split_eol_cons c (d :: r) C1 C2) as (l & ls & E1 & ->). rewrite E1 in IH2. inversion IH2; subst. constructor; auto.
Qed.
Lemma split_eol_line l r : no_eol l -> split_eol (l ++ 10%N :: r) = l :: split_eol r.
Proof.
  induction l as [|c l IH]; intros H; [reflexivity|]. destruct (H c (or_introl eq_refl)) as [H1 H2]. cbn [app]. destruct (split_eol_cons c (l ++ 10%N :: r) H1 H2) as (a & b & E1 & ->).
  rewrite IH in E1 by (intros x Hx; apply H; right; exact Hx). injection E1 as <- <-. reflexivity.
Qed.
Lemma split_eol_lines ls : Forall no_eol ls -> split_eol (flat_map (fun l => l ++ [10%N]) ls) = ls ++ [[]].
Proof.
  induction 1 as [|l ls H _ IH]; [reflexivity|]. cbn [flat_map]. rewrite <- app_assoc. cbn [app]. rewrite split_eol_line by exact H. rewrite IH. reflexivity.
Qed.
Lemma last_opt_app {A} (l r : list A) : r <> [] -> last_opt (l ++ r) = last_opt r.
Proof. intros Hr. induction l as [|x l IH]; [reflexivity|]. cbn [app]. rewrite last_opt_cons, IH. destruct r; [congruence|]. rewrite last_opt_cons. destruct (last_opt r); reflexivity. Qed.
Lemma text_lines_lines ls : Forall no_eol ls -> ls <> [] -> text_lines (flat_map (fun l => l ++ [10%N]) ls) = ls.
Proof.
  intros H Hne. unfold text_lines. rewrite split_eol_lines by exact H.
  assert (E : last_opt (flat_map (fun l => l ++ [10%N]) ls) = Some 10%N).
  { destruct ls as [|l ls _] using rev_ind; [congruence|]. rewrite flat_map_app. cbn [flat_map]. rewrite app_nil_r, app_assoc, last_opt_app by discriminate. reflexivity. }
  rewrite E. cbn [N.eqb]. change (N.eqb 10 10) with true. cbv iota. apply removelast_last.
Qed.
Lemma text_lines_no_eol s : Forall no_eol (text_lines s).
Proof.
  unfold text_lines. destruct (last_opt s) as [c|]; [destruct (N.eqb c 10)|]; try apply split_eol_no_eol.
  apply Forall_forall. intros x Hx. pose proof (split_eol_no_eol s) as H. rewrite Forall_forall in H. apply H.
  rewrite (app_removelast_last [] (split_eol_ne s)). apply in_or_app. left. exact Hx.
Qed.
Lemma split_eol_incl s l c : In l (split_eol s) -> In c l -> In c s.
Proof.
  revert l c. induction s as [|x|x d r IH1 IH2] using str_ind2; intros l c.
  - intros [<-|[]] [].
  - cbn [split_eol]. destruct (N.eqb_spec x 10); [|destruct (N.eqb_spec x 13)]; cbn [In]; intros [<-|[<-|[]]] || intros [<-|[]]; auto; intros [].
  - destruct (N.eq_dec x 10) as [->|C1]; [rewrite split_eol_lf; intros [<-|H]; [intros []|intros Hc; right; eapply IH2; eassumption]|].
    destruct (N.eq_dec x 13) as [->|C2].
    + destruct (N.eq_dec d 10) as [->|D]; [rewrite split_eol_crlf; intros [<-|H]; [intros []|intros Hc; right; right; eapply IH1; eassumption]|].
      rewrite split_eol_cr by (cbn; congruence). intros [<-|H]; [intros []|intros Hc; right; eapply IH2; eassumption].
    + destruct (split_eol_cons x (d :: r) C1 C2) as (a & ls & E1 & ->). rewrite E1 in IH2.
      intros [<-|H]; [intros [<-|Hc]; [left; reflexivity|right; eapply IH2; [left; reflexivity|exact Hc]]|intros Hc; right; eapply IH2; [right; exact H|exact Hc]].
Qed.
Lemma text_lines_incl s l c : In l (text_lines s) -> In c l -> In c s.
Proof.
  unfold text_lines. destruct (last_opt s) as [x|]; [destruct (N.eqb x 10)|]; try apply split_eol_incl.
  intros H. apply split_eol_incl. rewrite (app_removelast_last [] (split_eol_ne s)). apply in_or_app. left. exact H.
Qed.
Lemma text_lines_ne s : text_lines s <> [].
Proof. rewrite <- input_lines_text. intros E. pose proof (input_lines_ne s) as H. rewrite E in H. cbn in H. lia. Qed.

(** ** Quoting *)
Lemma quote_text_lines s : text_lines (quote_text s) = map (app (u "> ")) (text_lines s).
Proof.
  unfold quote_text. rewrite <- (text_lines_lines (map (app (u "> ")) (text_lines s))).
  - f_equal. rewrite flat_map_concat_map, flat_map_concat_map, map_map. f_equal. 
  - apply Forall_map. eapply Forall_impl; [|apply text_lines_no_eol]. intros l H c [<-|[<-|Hc]]; [split; discriminate|split; discriminate|apply H, Hc].
  - intros E. apply map_eq_nil in E. destruct (text_lines_ne _ E).
Qed.

(** ** The parser sees only the lines *)
Lemma parse_lines p s s' : text_lines s = text_lines s' -> parse p s = parse p s'.
Proof. intros E. unfold parse, parse_blocks. rewrite !input_lines_text, E. reflexivity. Qed.

(** ** A final line feed (C16) *)
Lemma split_eol_final s : last_opt s <> Some 13%N -> split_eol (s ++ [10%N]) = split_eol s ++ [[]].
Proof.
  induction s as [|c|c d r IH1 IH2] using str_ind2; intros H.
  - reflexivity.
  - cbn [last_opt] in H. destruct (N.eq_dec c 10) as [->|C1]; [reflexivity|]. destruct (N.eq_dec c 13) as [->|C2]; [congruence|].
    cbn [app]. destruct (split_eol_cons c [10%N] C1 C2) as (l & ls & E1 & ->), (split_eol_cons c [] C1 C2) as (l' & ls' & E2 & ->). injection E1 as <- <-. injection E2 as <- <-. reflexivity.
  - rewrite !last_opt_cons in H. cbn [app] in *. destruct (N.eq_dec c 10) as [->|C1].
    + rewrite !split_eol_lf. cbn [app]. f_equal. apply IH2. rewrite last_opt_cons. destruct (last_opt r); exact H.
    + destruct (N.eq_dec c 13) as [->|C2].
      * destruct (N.eq_dec d 10) as [->|D].
        -- rewrite !split_eol_crlf. cbn [app]. f_equal. apply IH1. destruct (last_opt r); [exact H|discriminate].
        -- rewrite !split_eol_cr by (cbn; congruence). cbn [app]. f_equal. apply IH2. rewrite last_opt_cons. destruct (last_opt r); exact H.
      * destruct (split_eol_cons c (d :: r ++ [10%N]) C1 C2) as (l & ls & E1 & ->), (split_eol_cons c (d :: r) C1 C2) as (l' & ls' & E2 & ->).
        rewrite IH2, E2 in E1 by (rewrite last_opt_cons; destruct (last_opt r); exact H). injection E1 as <- <-. reflexivity.
Qed.
Lemma text_lines_final s : s <> [] -> last_opt s <> Some 10%N -> last_opt s <> Some 13%N -> text_lines (s ++ [10%N]) = text_lines s.
Proof.
  intros _ H1 H2. unfold text_lines. rewrite last_opt_app by discriminate. cbn [last_opt]. change (N.eqb 10 10) with true. cbv iota. rewrite split_eol_final by exact H2. rewrite removelast_last.
  destruct (last_opt s) as [c|]; [|reflexivity]. destruct (N.eqb_spec c 10); [congruence|reflexivity].
Qed.

(** ** Line ending styles (C15) *)
Lemma flat_map_ne {A B} (f : A -> list B) x l : f x <> [] -> flat_map f (x :: l) <> [].
Proof. cbn [flat_map]. intros H E. apply app_eq_nil in E as [E _]. auto. Qed.
Lemma split_eol_crlf_style s : ~ In 13%N s -> split_eol (with_breaks [13; 10]%N s) = split_eol s.
Proof.
  induction s as [|c s IH]; intros H; [reflexivity|]. unfold with_breaks in *. cbn [flat_map]. destruct (N.eqb_spec c 10) as [->|C1].
  - cbn [app]. rewrite split_eol_crlf, split_eol_lf, IH; [reflexivity|]. intros G. apply H. right. exact G.
  - assert (C2 : c <> 13%N) by (intros ->; apply H; left; reflexivity). cbn [app].
    match goal with |- split_eol (c :: ?x) = _ => destruct (split_eol_cons c x C1 C2) as (l & ls & E1 & ->) end. destruct (split_eol_cons c s C1 C2) as (l' & ls' & E2 & ->).
    rewrite IH, E2 in E1 by (intros G; apply H; right; exact G). injection E1 as <- <-. reflexivity.
Qed.
Lemma split_eol_cr_style s : ~ In 13%N s -> split_eol (with_breaks [13]%N s) = split_eol s /\ ~ In 10%N (with_breaks [13]%N s).
Proof.
  induction s as [|c s IH]; intros H; [split; [reflexivity|intros []]|]. unfold with_breaks in *. destruct IH as [IH1 IH2]; [intros G; apply H; right; exact G|]. cbn [flat_map]. destruct (N.eqb_spec c 10) as [->|C1].
  - cbn [app]. rewrite split_eol_cr, split_eol_lf, IH1; [split; [reflexivity|intros [X|X]; [discriminate|auto]]|].
    intros G. apply IH2. destruct (flat_map _ s); cbn in G; [discriminate|]. injection G as ->. left. reflexivity.
  - assert (C2 : c <> 13%N) by (intros ->; apply H; left; reflexivity). cbn [app]. split; [|intros [X|X]; auto].
    match goal with |- split_eol (c :: ?x) = _ => destruct (split_eol_cons c x C1 C2) as (l & ls & E1 & ->) end. destruct (split_eol_cons c s C1 C2) as (l' & ls' & E2 & ->).
    rewrite IH1, E2 in E1. injection E1 as <- <-. reflexivity.
Qed.
Lemma last_with_breaks b x s : last_opt (b ++ [x]) = Some x -> last_opt (with_breaks (b ++ [x]) s) = option_map (fun c => if N.eqb c 10 then x else c) (last_opt s).
Proof.
  intros _. induction s as [|c s IH] using rev_ind; [reflexivity|]. unfold with_breaks. rewrite flat_map_app. cbn [flat_map]. rewrite app_nil_r, !last_opt_app by (discriminate || (destruct (N.eqb c 10); [destruct b|]; discriminate)).
  cbn [last_opt option_map]. destruct (N.eqb c 10); [|reflexivity]. rewrite last_opt_app by discriminate. reflexivity.
Qed.
Lemma text_lines_crlf s : ~ In 13%N s -> text_lines (with_breaks [13; 10]%N s) = text_lines s.
Proof.
  intros H. unfold text_lines. rewrite split_eol_crlf_style by exact H. rewrite (last_with_breaks [13%N] 10%N) by reflexivity.
  destruct (last_opt s) as [c|]; [|reflexivity]. cbn [option_map]. destruct (N.eqb_spec c 10) as [->|C]; [reflexivity|]. destruct (N.eqb_spec c 10); [congruence|reflexivity].
Qed.
Lemma text_lines_cr s : ~ In 13%N s -> last_opt s <> Some 10%N -> text_lines (with_breaks [13]%N s) = text_lines s.
Proof.
  intros H H1. unfold text_lines. destruct (split_eol_cr_style s H) as [-> _]. rewrite (last_with_breaks [] 13%N) by reflexivity.
  destruct (last_opt s) as [c|]; [|reflexivity]. cbn [option_map]. destruct (N.eqb_spec c 10) as [->|C]; [congruence|]. destruct (N.eqb_spec c 10); [congruence|reflexivity].
Qed.

(** ** Lines put before a text (C41) *)
Lemma text_lines_before bs s : Forall no_eol bs -> s <> [] -> text_lines (flat_map (fun l => l ++ [10%N]) bs ++ s) = bs ++ text_lines s.
Proof.
  intros Hb Hs. assert (E : split_eol (flat_map (fun l => l ++ [10%N]) bs ++ s) = bs ++ split_eol s).
  { induction Hb as [|l bs H _ IH]; [reflexivity|]. cbn [flat_map]. rewrite <- !app_assoc. cbn [app]. rewrite split_eol_line by exact H. rewrite IH. reflexivity. }
  unfold text_lines. rewrite last_opt_app by exact Hs. rewrite E. destruct (last_opt s) as [c|]; [destruct (N.eqb c 10)|]; try reflexivity. apply removelast_app, split_eol_ne.
Qed.
Lemma blank_no_eol l : blank_line l -> no_eol l.
Proof. intros H c Hc. destruct (H c Hc) as [-> | ->]; split; discriminate. Qed.
