(** * A model of Python's [re] module (the part the code uses)

    Backtracking matcher in continuation-passing style: ordered alternation, greedy and
    lazy repetition, capturing groups, [^], [$], MULTILINE [^], lookahead.
    [re_compile] parses the text of a Python pattern, so that the patterns of the code
    can be written down as they are in the source. *)
From Verif Require Import Base.
Local Open Scope N_scope.

(** ** Character classes *)
Inductive citem :=
| CRange (lo hi : N)
| CSpace          (* \s *)
| CNotSpace       (* \S *)
| CDigit.         (* \d *)

Record cset := CS { cs_neg : bool; cs_icase : bool; cs_items : list citem }.

(** First code points of the runs of ten decimal digits (category Nd, Unicode 14, the
    version in CPython 3.11): [\d] and [int()] accept them. *)
Definition nd_starts : list N :=
  [48; 1632; 1776; 1984; 2406; 2534; 2662; 2790; 2918; 3046; 3174; 3302; 3430; 3558; 3664;
   3792; 3872; 4160; 4240; 6112; 6160; 6470; 6608; 6784; 6800; 6992; 7088; 7232; 7248;
   42528; 43216; 43264; 43472; 43504; 43600; 44016; 65296; 66720; 68912; 69734; 69872;
   69942; 70096; 70384; 70736; 70864; 71248; 71360; 71472; 71904; 72016; 72784; 73040;
   73120; 92768; 92864; 93008; 120782; 120792; 120802; 120812; 120822; 123200; 123632;
   125264; 130032].
Definition digit_value (c : N) : option N :=
  match find (fun a => in_range a (a + 9) c) nd_starts with
  | Some a => Some (c - a)
  | None => None
  end.
Definition is_decimal (c : N) : bool := match digit_value c with Some _ => true | None => false end.

(** Lower-casing as done by [re.IGNORECASE] on Unicode patterns, as far as ASCII letters are
    concerned: besides A-Z, the four letters U+0130, U+0131, U+017F, U+212A are
    equivalent to ASCII ones (documented in the [re] manual). *)
Definition fold_icase (c : N) : N :=
  if in_range 65 90 c then c + 32
  else if N.eqb c 304 || N.eqb c 305 then 105
  else if N.eqb c 383 then 115
  else if N.eqb c 8490 then 107
  else c.

Definition item_match (icase : bool) (c : N) (i : citem) : bool :=
  match i with
  | CSpace => is_space c
  | CNotSpace => negb (is_space c)
  | CDigit => is_decimal c
  | CRange lo hi =>
      if icase
      then let l := fold_icase c in
           in_range lo hi l || (in_range 97 122 l && in_range lo hi (l - 32))
      else in_range lo hi c
  end.
Definition cmatch (cs : cset) (c : N) : bool :=
  xorb (cs_neg cs) (existsb (item_match (cs_icase cs) c) (cs_items cs)).

(** ** Regular expressions *)
Inductive regex :=
| REps
| RChr (cs : cset)
| RSeq (a b : regex)
| RAlt (a b : regex)
| RRep (greedy : bool) (mn : nat) (mx : option nat) (a : regex)
| RGrp (n : nat) (a : regex)
| RBol                         (* ^ *)
| RBolM                        (* ^ with MULTILINE *)
| REol                         (* $ *)
| RLook (neg : bool) (a : regex).  (* (?=a), (?!a) *)

(** Matching state: previous character (None at the start of the subject), rest of the
    subject, captured groups (latest first). *)
Record mst := MS { ms_prev : option N; ms_rest : str; ms_caps : list (nat * str) }.

Definition kont := mst -> option mst.

Fixpoint times (body : kont -> kont) (n : nat) (k : kont) (st : mst) : option mst :=
  match n with
  | O => k st
  | S n' => body (times body n' k) st
  end.

(** At most [n] further iterations; each must consume something (as in CPython, where an
    iteration that matches the empty string ends the loop; no pattern here has one). *)
Fixpoint upto (body : kont -> kont) (greedy : bool) (n : nat) (k : kont) (st : mst) : option mst :=
  match n with
  | O => k st
  | S n' =>
      if greedy then
        match body (fun st' => if Nat.ltb (length (ms_rest st')) (length (ms_rest st))
                               then upto body greedy n' k st' else None) st with
        | Some x => Some x
        | None => k st
        end
      else
        match k st with
        | Some x => Some x
        | None => body (fun st' => if Nat.ltb (length (ms_rest st')) (length (ms_rest st))
                                   then upto body greedy n' k st' else None) st
        end
  end.

Fixpoint mtch (r : regex) (k : kont) (st : mst) {struct r} : option mst :=
  match r with
  | REps => k st
  | RChr cs =>
      match ms_rest st with
      | [] => None
      | c :: s' => if cmatch cs c then k (MS (Some c) s' (ms_caps st)) else None
      end
  | RSeq a b => mtch a (mtch b k) st
  | RAlt a b => match mtch a k st with Some x => Some x | None => mtch b k st end
  | RRep g mn mx a =>
      times (mtch a) mn
            (fun st' =>
               let room := length (ms_rest st') in
               upto (mtch a) g
                    (match mx with Some M => Nat.min (M - mn) room | None => room end) k st') st
  | RGrp n a =>
      mtch a (fun st' =>
                k (MS (ms_prev st') (ms_rest st')
                      ((n, firstn (length (ms_rest st) - length (ms_rest st')) (ms_rest st))
                         :: ms_caps st'))) st
  | RBol => match ms_prev st with None => k st | Some _ => None end
  | RBolM => match ms_prev st with
             | None => k st
             | Some c => if N.eqb c LF then k st else None
             end
  | REol => match ms_rest st with
            | [] => k st
            | [c] => if N.eqb c LF then k st else None
            | _ => None
            end
  | RLook neg a =>
      match mtch a (fun x => Some x) st with
      | Some _ => if neg then None else k st
      | None => if neg then k st else None
      end
  end.

(** ** Results *)
Record rmatch := RM {
  rm_before : str;               (* subject[:m.start()] *)
  rm_group : str;                (* m.group() *)
  rm_after : str;                (* subject[m.end():] *)
  rm_caps : list (nat * str) }.
(** [m.end()] *)
Definition rm_end (m : rmatch) : nat := (length (rm_before m) + length (rm_group m))%nat.
(** [m.group(n)] *)
Definition rm_cap (m : rmatch) (n : nat) : option str :=
  match find (fun p => Nat.eqb (fst p) n) (rm_caps m) with Some p => Some (snd p) | None => None end.

Definition match_at (r : regex) (prev : option N) (s : str) : option (str * str * list (nat * str)) :=
  match mtch r (fun x => Some x) (MS prev s []) with
  | Some st => Some (firstn (length s - length (ms_rest st)) s, ms_rest st, ms_caps st)
  | None => None
  end.

Fixpoint search_from (r : regex) (prev : option N) (before : str) (s : str) : option rmatch :=
  match match_at r prev s with
  | Some (g, a, caps) => Some (RM (rev before) g a caps)
  | None => match s with
            | [] => None
            | c :: s' => search_from r (Some c) (c :: before) s'
            end
  end.
(** [re.search(r, s)] *)
Definition re_search (r : regex) (s : str) : option rmatch := search_from r None [] s.
Definition re_test (r : regex) (s : str) : bool :=
  match re_search r s with Some _ => true | None => false end.

(** [re.sub(r, f, s)]; the bound [length s + 1] is never reached before the end of [s]. *)
Fixpoint sub_loop (fuel : nat) (r : regex) (f : rmatch -> str) (prev : option N) (s : str) : str :=
  match fuel with
  | O => []
  | S n =>
      match match_at r prev s with
      | Some (g, a, caps) =>
          f (RM [] g a caps) ++
          (if is_nil g
           then match s with [] => [] | c :: s' => c :: sub_loop n r f (Some c) s' end
           else sub_loop n r f (last_opt g) a)
      | None => match s with [] => [] | c :: s' => c :: sub_loop n r f (Some c) s' end
      end
  end.
Definition re_sub (r : regex) (f : rmatch -> str) (s : str) : str :=
  sub_loop (S (length s)) r f None s.

(** [re.split(r, s)] for a pattern that never matches the empty string *)
Fixpoint split_loop (fuel : nat) (r : regex) (prev : option N) (cur : str) (s : str) : list str :=
  match fuel with
  | O => []
  | S n =>
      match match_at r prev s with
      | Some (g, a, _) => rev cur :: split_loop n r (last_opt g) [] a
      | None => match s with
                | [] => [rev cur]
                | c :: s' => split_loop n r (Some c) (c :: cur) s'
                end
      end
  end.
Definition re_split (r : regex) (s : str) : list str := split_loop (S (length s)) r None [] s.

(** ** Pattern parser: [re.compile(pattern, flags)] *)
Definition hex_value (c : N) : option N :=
  if in_range 48 57 c then Some (c - 48)
  else if in_range 97 102 c then Some (c - 87)
  else if in_range 65 70 c then Some (c - 55)
  else None.
Fixpoint hex_prefix (n : nat) (acc : N) (s : str) : option (N * str) :=
  match n with
  | O => Some (acc, s)
  | S n' => match s with
            | [] => None
            | c :: s' => match hex_value c with
                         | Some d => hex_prefix n' (acc * 16 + d) s'
                         | None => None
                         end
            end
  end.
(** after a backslash: a class item *)
Definition parse_escape (s : str) : option (citem * str) :=
  match s with
  | [] => None
  | c :: s' =>
      let one x := Some (CRange x x, s') in
      if N.eqb c 115 then Some (CSpace, s')                   (* \s *)
      else if N.eqb c 83 then Some (CNotSpace, s')            (* \S *)
      else if N.eqb c 100 then Some (CDigit, s')              (* \d *)
      else if N.eqb c 110 then one 10                         (* \n *)
      else if N.eqb c 116 then one 9                          (* \t *)
      else if N.eqb c 114 then one 13                         (* \r *)
      else if N.eqb c 102 then one 12                         (* \f *)
      else if N.eqb c 118 then one 11                         (* \v *)
      else if N.eqb c 48 then one 0                           (* \0 *)
      else if N.eqb c 120 then                                (* \xHH *)
        match hex_prefix 2 0 s' with Some (v, r) => Some (CRange v v, r) | None => None end
      else if N.eqb c 117 then                                (* \uHHHH *)
        match hex_prefix 4 0 s' with Some (v, r) => Some (CRange v v, r) | None => None end
      else if in_range 97 122 c || in_range 65 90 c then None (* other letters: not supported *)
      else one c
  end.
(** one class member, as item *)
Definition parse_member (s : str) : option (citem * str) :=
  match s with
  | [] => None
  | c :: s' => if N.eqb c 92 then parse_escape s' else Some (CRange c c, s')
  end.
(** after [[] or [[^]: members up to []] *)
Fixpoint parse_class (fuel : nat) (first : bool) (acc : list citem) (s : str)
  : option (list citem * str) :=
  match fuel with
  | O => None
  | S f =>
      match s with
      | [] => None
      | c :: s' =>
          if N.eqb c 93 && negb first then Some (rev acc, s')
          else match parse_member s with
               | None => None
               | Some (CRange lo hi, r) =>
                   match r with
                   | d :: e :: r' =>
                       if N.eqb d 45 && negb (N.eqb e 93)
                       then match parse_member (e :: r') with
                            | Some (CRange lo' _, r'') => parse_class f false (CRange lo lo' :: acc) r''
                            | _ => None
                            end
                       else parse_class f false (CRange lo hi :: acc) r
                   | _ => parse_class f false (CRange lo hi :: acc) r
                   end
               | Some (i, r) => parse_class f false (i :: acc) r
               end
      end
  end.

Fixpoint dec_prefix (acc : option nat) (s : str) : option nat * str :=
  match s with
  | c :: s' => if in_range 48 57 c
               then dec_prefix (Some (match acc with Some a => a * 10 | None => 0 end
                                      + N.to_nat (c - 48))%nat) s'
               else (acc, s)
  | [] => (acc, s)
  end.
(** quantifier bounds after an atom: None if there is no quantifier *)
Definition parse_quant (s : str) : option (nat * option nat * str) :=
  match s with
  | [] => None
  | c :: s' =>
      if N.eqb c 42 then Some (O, None, s')                   (* * *)
      else if N.eqb c 43 then Some (1%nat, None, s')          (* + *)
      else if N.eqb c 63 then Some (O, Some 1%nat, s')        (* ? *)
      else if N.eqb c 123 then                                (* {m,n} *)
        let '(m, r) := dec_prefix None s' in
        match r with
        | d :: r' =>
            if N.eqb d 44 then
              let '(n, r'') := dec_prefix None r' in
              match r'' with
              | e :: r3 => if N.eqb e 125 then Some (match m with Some x => x | None => O end, n, r3) else None
              | [] => None
              end
            else if N.eqb d 125 then Some (match m with Some x => x | None => O end, m, r') else None
        | [] => None
        end
      else None
  end.

Record flags := FL { fl_icase : bool; fl_multiline : bool }.
Definition noflags := FL false false.
Definition IGNORECASE := FL true false.
Definition MULTILINE := FL false true.

Section Parser.
  Variable fl : flags.
  Definition chr_item (i : citem) : regex := RChr (CS false (fl_icase fl) [i]).

  (** [parse_alt fuel n s] parses an alternation up to [)] or the end; [n] is the number
      of capturing groups opened so far. *)
  Fixpoint parse_alt (fuel : nat) (n : nat) (s : str) : option (regex * nat * str) :=
    match fuel with
    | O => None
    | S f =>
        match parse_seq f n s with
        | Some (a, n', c :: s') =>
            if N.eqb c 124
            then match parse_alt f n' s' with
                 | Some (b, n'', r) => Some (RAlt a b, n'', r)
                 | None => None
                 end
            else Some (a, n', c :: s')
        | x => x
        end
    end
  with parse_seq (fuel : nat) (n : nat) (s : str) : option (regex * nat * str) :=
    match fuel with
    | O => None
    | S f =>
        match s with
        | [] => Some (REps, n, [])
        | c :: s' =>
            if N.eqb c 124 || N.eqb c 41 then Some (REps, n, s)
            else
              match parse_atom f n s with
              | None => None
              | Some (a, n', r) =>
                  let '(a', r') :=
                    match parse_quant r with
                    | None => (a, r)
                    | Some (mn, mx, q) =>
                        match q with
                        | d :: q' => if N.eqb d 63 then (RRep false mn mx a, q') else (RRep true mn mx a, q)
                        | [] => (RRep true mn mx a, q)
                        end
                    end in
                  match parse_seq f n' r' with
                  | Some (REps, n'', t) => Some (a', n'', t)
                  | Some (b, n'', t) => Some (RSeq a' b, n'', t)
                  | None => None
                  end
              end
        end
    end
  with parse_atom (fuel : nat) (n : nat) (s : str) : option (regex * nat * str) :=
    match fuel with
    | O => None
    | S f =>
        match s with
        | [] => None
        | c :: s' =>
            let close x := match x with
                           | Some (a, n', d :: r) => if N.eqb d 41 then Some (a, n', r) else None
                           | _ => None
                           end in
            if N.eqb c 40 then                                              (* ( *)
              match s' with
              | 63 :: 58 :: r => close (parse_alt f n r)                    (* (?: *)
              | 63 :: 61 :: r =>                                            (* (?= *)
                  match close (parse_alt f n r) with
                  | Some (a, n', t) => Some (RLook false a, n', t) | None => None end
              | 63 :: 33 :: r =>                                            (* (?! *)
                  match close (parse_alt f n r) with
                  | Some (a, n', t) => Some (RLook true a, n', t) | None => None end
              | _ =>
                  match close (parse_alt f (S n) s') with
                  | Some (a, n', t) => Some (RGrp (S n) a, n', t) | None => None end
              end
            else if N.eqb c 91 then                                         (* [ *)
              match s' with
              | 94 :: r =>
                  match parse_class f true [] r with
                  | Some (l, t) => Some (RChr (CS true (fl_icase fl) l), n, t) | None => None end
              | _ =>
                  match parse_class f true [] s' with
                  | Some (l, t) => Some (RChr (CS false (fl_icase fl) l), n, t) | None => None end
              end
            else if N.eqb c 92 then                                         (* \ *)
              match parse_escape s' with
              | Some (i, t) => Some (chr_item i, n, t) | None => None end
            else if N.eqb c 46 then Some (RChr (CS true false [CRange 10 10]), n, s')  (* . *)
            else if N.eqb c 94 then Some (if fl_multiline fl then RBolM else RBol, n, s')
            else if N.eqb c 36 then Some (REol, n, s')
            else Some (chr_item (CRange c c), n, s')
        end
    end.
End Parser.

Definition re_parse (fl : flags) (p : str) : option regex :=
  match parse_alt fl (4 * length p + 4)%nat O p with
  | Some (r, _, []) => Some r
  | _ => None
  end.
(** The pattern's AST, computed when the definition is checked; an unparsable pattern is an error. *)
Notation re_compile fl p := (ltac:(let v := eval vm_compute in (re_parse fl p) in
                                  match v with Some ?r => exact r end)) (only parsing).
