(** * Model of dump.py, and of the part of [json.dumps] and [print] it uses *)
From Verif Require Import Base Regex Common Node.

(** ** Python values as [json.dumps] sees them *)
Inductive json :=
| JNull
| JBool (b : bool)
| JInt (n : N)
| JStr (s : str)
| JList (l : list json)
| JDict (l : list (str * json)).

(** The [list_data] dictionary in key order (blocks.py 89-97) *)
Definition j_chr (c : option N) : json := match c with Some x => JStr [x] | None => JNull end.
Definition j_list_data (ld : ldata) : json :=
  JDict [ (u "bullet_char", j_chr (ld_bullet_char ld));
          (u "delimiter", j_chr (ld_delimiter ld));
          (u "marker_offset", JInt (N.of_nat (ld_marker_offset ld)));
          (u "padding", JInt (N.of_nat (ld_padding ld)));
          (u "start", match ld_start ld with Some n => JInt n | None => JNull end);
          (u "tight", JBool (ld_tight ld));
          (u "type", JStr (match ld_type ld with bullet => u "bullet" | ordered => u "ordered" end)) ].

(** The dictionary [rep] of dump.py 16-38: the fields, and ['children'] apart (None: no such key) *)
Inductive rep := Rep (d : ndata) (children : option (list rep)).

Definition rep_of (t : tree) : rep :=
  Rep (t_data t) (if is_container (t_type t) then Some [] else None).

(** dump.py 40-46: one event; [a] is kept in reverse, the last element first.
    [a[-1]['children']] raises KeyError for a node without that key. *)
Definition prepare_step (a : list rep) (ev : event) : res (list rep) :=
  let r := rep_of (ev_node ev) in
  if ev_entering ev
  then match a with
       | Rep d (Some ch) :: a' => Ok (Rep d (Some (ch ++ [r])) :: a')
       | Rep d None :: _ => Err KeyError
       | [] => Ok [r]
       end
  else Ok (r :: a).
Fixpoint prepare_loop (evs : list event) (a : list rep) : res (list rep) :=
  match evs with
  | [] => Ok (rev a)
  | ev :: evs' => let* a' := prepare_step a ev in prepare_loop evs' a'
  end.
(** dump.py 8-47: [prepare] *)
Definition prepare (t : tree) : res (list rep) := prepare_loop (walker t) [].

(** The dictionary with its keys in sorted order ([sort_keys=True]) *)
Definition j_field (k : str) (o : option str) : list (str * json) :=
  if truthy o then [(k, JStr (or_empty o))] else [].
Fixpoint j_rep (r : rep) : json :=
  match r with
  | Rep d ch =>
      JDict (match ch with Some l => [(u "children", JList (map j_rep l))] | None => [] end ++
             j_field (u "destination") (n_destination d) ++
             j_field (u "info") (n_info d) ++
             match n_list_data d with Some ld => [(u "list_data", j_list_data ld)] | None => [] end ++
             j_field (u "literal") (n_literal d) ++
             j_field (u "string_content") (n_string_content d) ++
             j_field (u "title") (n_title d) ++
             [(u "type", JStr (type_name (n_t d)))])
  end.

(** ** [json.dumps(x, indent=4, sort_keys=True)] (with the default [ensure_ascii]) *)
Definition hex_lower (d : N) : N := if N.ltb d 10 then (48 + d)%N else (87 + d)%N.
Definition j_u (n : N) : str :=
  [92; 117; hex_lower (n / 4096); hex_lower ((n / 256) mod 16);
   hex_lower ((n / 16) mod 16); hex_lower (n mod 16)]%N.
Definition j_char (c : N) : str :=
  if N.eqb c 34 then u "\""" else if N.eqb c 92 then u "\\"
  else if N.eqb c 10 then u "\n" else if N.eqb c 13 then u "\r" else if N.eqb c 9 then u "\t"
  else if N.eqb c 12 then u "\f" else if N.eqb c 8 then u "\b"
  else if in_range 32 126 c then [c]
  else if N.ltb c 65536 then j_u c
  else let n := (c - 65536)%N in j_u (55296 + n / 1024)%N ++ j_u (56320 + n mod 1024)%N.
Definition j_string (s : str) : str := u """" ++ flat_map j_char s ++ u """".
Definition j_nl (lvl : nat) : str := LF :: repeat SP (4 * lvl).
Fixpoint j_write (lvl : nat) (j : json) : str :=
  match j with
  | JNull => u "null"
  | JBool b => if b then u "true" else u "false"
  | JInt n => str_of_N n
  | JStr s => j_string s
  | JList [] => u "[]"
  | JList (x :: l) =>
      u "[" ++ j_nl (S lvl) ++ j_write (S lvl) x ++
      flat_map (fun y => u "," ++ j_nl (S lvl) ++ j_write (S lvl) y) l ++ j_nl lvl ++ u "]"
  | JDict [] => u "{}"
  | JDict ((k, x) :: l) =>
      u "{" ++ j_nl (S lvl) ++ j_string k ++ u ": " ++ j_write (S lvl) x ++
      flat_map (fun kv => u "," ++ j_nl (S lvl) ++ j_string (fst kv) ++ u ": " ++ j_write (S lvl) (snd kv)) l
      ++ j_nl lvl ++ u "}"
  end.

(** dump.py 50-53: [dumpJSON] *)
Definition dumpJSON (t : tree) : res str :=
  let* l := prepare t in Ok (j_write 0 (JList (map j_rep l))).

(** ** [dumpAST]: what is printed *)
Definition pr (s : str) : str := s ++ [LF].
(** [not x == ""] for a string or None *)
Definition not_empty (o : option str) : bool := match o with Some [] => false | _ => true end.
Definition pos_str (p : nat * nat) : str :=
  u "[" ++ str_of_nat (fst p) ++ u ", " ++ str_of_nat (snd p) ++ u "]".
(** dump.py 58-99: one node *)
Definition dump_node (ind : nat) (d : ndata) : str :=
  let indChar := if Nat.eqb ind 0 then [] else repeat TAB ind ++ u "-> " in
  let line (label : str) (o : option str) :=
    if not_empty o then pr ([TAB] ++ indChar ++ label ++ or_empty o) else [] in
  pr (indChar ++ u "[" ++ type_name (n_t d) ++ u "]") ++
  line (u "Title: ") (n_title d) ++
  line (u "Info: ") (n_info d) ++
  line (u "Destination: ") (n_destination d) ++
  (if n_is_open d then pr ([TAB] ++ indChar ++ u "Open: True") else []) ++
  (if n_last_line_blank d then pr ([TAB] ++ indChar ++ u "Last line blank: True") else []) ++
  match n_sourcepos d with
  | Some (a, b) => pr ([TAB] ++ indChar ++ u "Sourcepos: [" ++ pos_str a ++ u ", " ++ pos_str b ++ u "]")
  | None => []
  end ++
  line (u "String content: ") (n_string_content d) ++
  line (u "Info: ") (n_info d) ++
  line (u "Literal: ") (n_literal d) ++
  match n_list_data d with
  | None => []
  | Some ld =>
      let sub (label v : str) := pr ([TAB; TAB] ++ indChar ++ label ++ v) in
      pr ([TAB] ++ indChar ++ u "List Data: ") ++
      sub (u "[type] = ") (match ld_type ld with bullet => u "bullet" | ordered => u "ordered" end) ++
      match ld_bullet_char ld with Some c => sub (u "[bullet_char] = ") [c] | None => [] end ++
      match ld_start ld with
      | Some n => if N.eqb n 0 then [] else sub (u "[start] = ") (str_of_N n) | None => [] end ++
      match ld_delimiter ld with Some c => sub (u "[delimiter] = ") [c] | None => [] end ++
      (if Nat.eqb (ld_padding ld) 0 then [] else sub (u "[padding] = ") (str_of_nat (ld_padding ld))) ++
      (if Nat.eqb (ld_marker_offset ld) 0 then []
       else sub (u "[marker_offset] = ") (str_of_nat (ld_marker_offset ld)))
  end ++
  pr ([TAB] ++ indChar ++ u "Children:").
(** dump.py 56-105: [dumpAST(obj)]; the nodes below are printed with [topnode=True], so they do
    not walk again *)
Definition dumpAST (t : tree) : str :=
  dump_node 0 (t_data t) ++ flat_map (fun ev => dump_node 2 (t_data (ev_node ev))) (walker t).
