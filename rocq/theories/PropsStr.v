(** * Property theorems about the string functions of common.py, entitytrans.py and
    normalize_reference.py *)
From Verif Require Import Base Regex Entities Common NormRef Spec RegexFacts StrFacts CommonFacts LabelFacts.

(** ** C21 *)
(** [html_unescape] is what both parseEntity and unescape_string use *)
Theorem C21_decimal_reference :
  forall digits n, digits <> [] -> number_of dec_digit 10 0 digits = Some n ->
    html_unescape (u "&#" ++ digits ++ u ";") = number_text n /\
    entitytrans_unescape (u "&#" ++ digits ++ u ";") = number_text n.
Proof. intros digits n H1 H2. exact (conj (dec_reference _ _ _ H1 H2) (dec_reference _ _ _ H1 H2)). Qed.
Print Assumptions C21_decimal_reference.

Theorem C21_hexadecimal_reference :
  forall x digits n, x = 120%N \/ x = 88%N -> digits <> [] -> number_of hex_digit_val 16 0 digits = Some n ->
    html_unescape (u "&#" ++ [x] ++ digits ++ u ";") = number_text n /\
    entitytrans_unescape (u "&#" ++ [x] ++ digits ++ u ";") = number_text n.
Proof. intros x digits n H1 H2 H3. exact (conj (hex_reference _ _ _ _ H1 H2 H3) (hex_reference _ _ _ _ H1 H2 H3)). Qed.
Print Assumptions C21_hexadecimal_reference.

Theorem C21_at_most_one_character : forall n, length (number_text n) <= 1.
Proof. exact number_text_short. Qed.
Print Assumptions C21_at_most_one_character.

Example C21_case :
  number_of dec_digit 10 0 (u "8364") = Some 8364%N /\ number_text 8364 = [8364%N] /\
  number_of hex_digit_val 16 0 (u "1F600") = Some 128512%N /\ number_text 128512 = [128512%N] /\
  number_text 0 = [65533%N] /\ number_text 128 = [8364%N] /\ number_text 1114112 = [65533%N] /\
  html_unescape (u "&#x80;") = [8364%N].
Proof. repeat split; vm_compute; reflexivity. Qed.

(** ** C23 *)
Theorem C23_only_uri_characters :
  forall uri v, Forall code_point uri -> normalize_uri uri = Ok v -> forallb uri_char v = true.
Proof. exact normalize_uri_uri_chars. Qed.
Print Assumptions C23_only_uri_characters.

Theorem C23_raises_only_for_surrogates :
  forall uri, ((exists v, normalize_uri uri = Ok v) <-> Forall (fun c => ~ surrogate c) uri) /\
              (forall e, normalize_uri uri = Err e -> e = UnicodeEncodeError).
Proof. intros uri. exact (conj (normalize_uri_ok uri) (normalize_uri_err uri)). Qed.
Print Assumptions C23_raises_only_for_surrogates.

Theorem C23_idempotent :
  forall uri v, Forall code_point uri -> normalize_uri uri = Ok v -> normalize_uri v = Ok v.
Proof. intros uri v H1 H2. exact (normalize_uri_safe _ (normalize_uri_chars _ _ H1 H2)). Qed.
Print Assumptions C23_idempotent.

Theorem C23_percent_decoding_gives_back_utf8 :
  forall uri v, Forall code_point uri -> ~ In 37%N uri -> normalize_uri uri = Ok v ->
    exists bytes, percent_decode v = Some bytes /\ utf8_decode bytes = Some uri.
Proof. exact normalize_uri_decode. Qed.
Print Assumptions C23_percent_decoding_gives_back_utf8.

Example C23_case :
  normalize_uri (u "a b\" ++ [252; 8364; 128512]%N) = Ok (u "a%20b%5C%C3%BC%E2%82%AC%F0%9F%98%80") /\
  normalize_uri [55296%N] = Err UnicodeEncodeError.
Proof. split; vm_compute; reflexivity. Qed.

(** ** C24 *)
Theorem C24_case_and_spacing_ignored :
  forall a b, same_label a b -> normalize_reference (in_brackets a) = normalize_reference (in_brackets b).
Proof. exact key_same. Qed.
Print Assumptions C24_case_and_spacing_ignored.

Theorem C24_stable :
  forall l, normalize_reference (in_brackets (normalize_reference (in_brackets l)))
            = normalize_reference (in_brackets l).
Proof. exact key_stable. Qed.
Print Assumptions C24_stable.

Theorem C24_visible_label_has_a_key :
  forall l c, In c l -> is_space c = false -> normalize_reference (in_brackets l) <> [].
Proof. exact key_visible. Qed.
Print Assumptions C24_visible_label_has_a_key.

(** and nothing else is identified, among one-word ASCII labels *)
Theorem C24_nothing_else_ignored :
  forall l, forallb (in_range 33 126) l = true -> normalize_reference (in_brackets l) = map ascii_lower l.
Proof. exact key_ascii_words. Qed.
Print Assumptions C24_nothing_else_ignored.

Example C24_case : same_label (u " Foo   BAR ") (u "foo bar").
Proof.
  eapply sl_trans; [apply (sl_outer (u "Foo   BAR") [32%N] [32%N]); reflexivity|].
  eapply sl_trans; [apply (sl_inner (u "Foo") (u "   ") (u " ") (u "BAR")); try reflexivity; discriminate|].
  eapply sl_trans; [apply (sl_case [] 70 (u "oo BAR")); lia|].
  eapply sl_trans; [apply (sl_case (u "foo ") 66 (u "AR")); lia|].
  eapply sl_trans; [apply (sl_case (u "foo b") 65 (u "R")); lia|].
  apply (sl_case (u "foo ba") 82 []); lia.
Qed.

(** ** C46 *)
Theorem C46_identity_without_escapes :
  forall s, ~ In 92%N s -> ~ In 38%N s -> unescape_string s = s.
Proof. exact unescape_string_plain. Qed.
Print Assumptions C46_identity_without_escapes.

Theorem C46_undoes_escaping : forall s, unescape_string (backslash_escape s) = s.
Proof. exact unescape_escape. Qed.
Print Assumptions C46_undoes_escaping.

Example C46_case : backslash_escape (u "a&amp;*\b") = u "a\&amp\;\*\\b" /\ unescape_string (u "a\&amp\;\*\\b\c&amp;") = u "a&amp;*\b\c&".
Proof. split; vm_compute; reflexivity. Qed.

(** ** C47 *)
Theorem C47_listed_names :
  forall name v, In (name ++ u ";", v) html5_table ->
    html_unescape (u "&" ++ name ++ u ";") = v /\ entitytrans_unescape (u "&" ++ name ++ u ";") = v.
Proof. intros name v H. apply (table_decodes (name ++ u ";") v H). rewrite last_opt_app. reflexivity. Qed.
Print Assumptions C47_listed_names.

Theorem C47_unlisted_names :
  forall name, ~ In 38%N name -> hd_error name <> Some 35%N ->
    (forall p q, name ++ u ";" = p ++ q -> ~ In p (map fst html5_stdlib)) ->
    html_unescape (u "&" ++ name ++ u ";") = u "&" ++ name ++ u ";".
Proof.
  intros name H1 H2 H3. apply (named_unchanged html5_stdlib (name ++ u ";")).
  - intros X. apply app_eq_nil in X as [_ X]. discriminate.
  - intros X. apply in_app_or in X as [X|[X|[]]]; [exact (H1 X)|discriminate].
  - destruct name; [discriminate|exact H2].
  - intros p q Hpq. exact (assoc_str_none _ _ (H3 p q Hpq)).
Qed.
Print Assumptions C47_unlisted_names.

Example C47_case :
  In (u "auml" ++ u ";", [228%N]) html5_table /\ html_unescape (u "&auml;") = [228%N] /\
  (forall p q, u "xyz" ++ u ";" = p ++ q -> ~ In p (map fst html5_stdlib)) /\
  html_unescape (u "&notit;") = 172%N :: u "it;".
Proof.
  assert (G : existsb (fun p => str_eqb (fst p) (u "auml;") && str_eqb (snd p) [228%N]) html5_table = true) by (vm_compute; reflexivity).
  apply existsb_exists in G as ([k v] & Hin & E). apply andb_prop in E as [E1 E2]. apply str_eqb_eq in E1, E2. cbn [fst snd] in *.
  split; [rewrite <- E2; change (u "auml" ++ u ";") with (u "auml;"); rewrite <- E1; exact Hin|].
  split; [vm_compute; reflexivity|]. split; [|vm_compute; reflexivity].
  intros p q Hpq Hp.
  assert (Hx : exists n, p = firstn n (u "xyz;")).
  { exists (length p). change (u "xyz;") with (u "xyz" ++ u ";"). rewrite Hpq, firstn_app, Nat.sub_diag, firstn_all. cbn. rewrite app_nil_r. reflexivity. }
  destruct Hx as [n ->].
  assert (Hn : forall m, m <= 4 -> existsb (str_eqb (firstn m (u "xyz;"))) (map fst html5_stdlib) = false).
  { intros m Hm. do 5 (destruct m as [|m]; [vm_compute; reflexivity|]). lia. }
  assert (E : exists m, m <= 4 /\ firstn n (u "xyz;") = firstn m (u "xyz;")).
  { destruct (Nat.le_gt_cases n 4); [exists n; split; [assumption|reflexivity]|]. exists 4. split; [lia|]. rewrite !firstn_all2; auto; cbn; lia. }
  destruct E as (m & Hm & E). rewrite E in Hp. specialize (Hn m Hm). rewrite <- not_true_iff_false in Hn. apply Hn.
  apply existsb_exists. exists (firstn m (u "xyz;")). split; [exact Hp|]. apply str_eqb_refl.
Qed.
