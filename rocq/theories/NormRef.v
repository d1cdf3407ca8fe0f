(** * Model of normalize_reference.py *)
From Verif Require Import Base Regex Entities Common.
Local Open Scope Z_scope.

(** [s.split(c)] *)
Fixpoint split_char_aux (c : N) (cur : str) (s : str) : list str :=
  match s with
  | [] => [rev cur]
  | x :: s' => if N.eqb x c then rev cur :: split_char_aux c [] s' else split_char_aux c (x :: cur) s'
  end.
Definition split_char (c : N) (s : str) : list str := split_char_aux c [] s.

(** [int(x, 36) if x else 0], with an optional sign *)
Definition b36_digit (c : N) : N :=
  if in_range 48 57 c then (c - 48)%N else if in_range 97 122 c then (c - 87)%N else 0%N.
Definition int36_abs (s : str) : Z :=
  Z.of_N (fold_left (fun acc c => (acc * 36 + b36_digit c)%N) s 0%N).
Definition int36 (s : str) : Z :=
  match s with
  | 45%N :: r => - int36_abs r
  | _ => int36_abs s
  end.

(** normalize_reference.py 47-54, the loop [while i <= last]; [n] bounds the iterations by the
    length of the run.  The assertions become the test [ok] in [parse_table]. *)
Fixpoint xlat_run (n : nat) (i last stride cur_j : Z) (sfx : str) : list (N * str) :=
  match n with
  | O => []
  | S n' =>
      if Z.leb i last
      then (Z.to_N i, Z.to_N (i + cur_j) :: sfx) :: xlat_run n' (i + stride) last stride cur_j sfx
      else []
  end.

(** normalize_reference.py 32-55: [_parse_table] *)
Definition xlat_entry (st : Z * Z * list (N * str)) (entry : str) : Z * Z * list (N * str) :=
  let '(cur_i, cur_j, xlat) := st in
  let arr := split_char 44 entry in
  let info := map int36 (split_char 58 (hd [] arr)) in
  let sfx := map (fun x => Z.to_N (int36 x)) (tl arr) in
  let '(fdt, streak, delta, stride) :=
    match info with
    | [f; d] => (f, 0, d, 1)
    | [f; s; d] => (f, s, d, 1)
    | [f; s; d; t] => (f, s, d, t)
    | _ => (0, 0, 0, 1)            (* not reached: Python would raise on unpacking *)
    end in
  let cur_i := cur_i + (fdt + 1) in
  let cur_j := cur_j - delta in
  (cur_i, cur_j, xlat ++ xlat_run (S (Z.to_nat streak)) cur_i (cur_i + streak) stride cur_j sfx).
Definition parse_table (tbl : str) : list (N * str) :=
  snd (fold_left xlat_entry (split_char 59 tbl) (-1, 0, [])).

(** normalize_reference.py 58-91 *)
Definition XLAT : list (N * str) := Eval vm_compute in parse_table xlat_text.

(** [string.translate(XLAT)] *)
Definition translate (tbl : list (N * str)) (s : str) : str :=
  flat_map (fun c => match assoc_N c tbl with Some v => v | None => [c] end) s.

(** normalize_reference.py 110 *)
Definition SPACE_RE : regex := re_compile noflags (u "[ \t\r\n]+").

(** normalize_reference.py 111-125: [normalize_reference].
    Line 117 uses Python's own [casefold()] when that subsumes the table ([_check_native]),
    line 124 the table.  The model uses the table; on the characters assigned in Unicode 12
    the two agree. *)
Definition normalize_reference (s : str) : str :=
  translate XLAT (re_sub SPACE_RE (fun _ => [32%N]) (strip (chop_ends s))).
