(** * Model of render/rst.py *)
From Verif Require Import Base Regex Common Node.

(** [self.buf], [self.last_out], [self.indent_length]; [indent_char] is a parameter *)
Record rst := RS { r_buf : str; r_last : str; r_ind : Z }.
(** rst.py 24-26 (buf and last_out do not exist before the first [render]) *)
Definition new_rst : rst := RS [] [LF] 0.

(** [s * n] for a string and an int *)
Definition str_times (s : str) (n : Z) : str := concat (repeat s (Z.to_nat n)).

Section Rst.
  Variable indent_char : str.

  (** rst.py 28-36 and renderer.py 24-30 *)
  Definition r_lit (s : str) (st : rst) : rst :=
    let indent := if str_eqb s [LF] then []
                  else if negb (str_eqb (r_last st) [LF]) then []
                  else str_times indent_char (r_ind st) in
    RS (r_buf st ++ indent ++ s) (indent ++ s) (r_ind st).
  (** rst.py 38-39 *)
  Definition r_cr (st : rst) : rst := r_lit [LF] st.
  (** renderer.py 36-43; a None literal makes [indent + s] raise TypeError *)
  Definition r_out_opt (s : option str) (st : rst) : res rst :=
    let* s := of_option TypeError s in Ok (r_lit s st).

  (** Line boundaries of [str.splitlines()] *)
  Definition is_line_break (c : N) : bool :=
    in_range 10 13 c || in_range 28 30 c || N.eqb c 133 || N.eqb c 8232 || N.eqb c 8233.
  (** [s.splitlines()]; [cur] is the current line, reversed *)
  Fixpoint splitlines_aux (cur : str) (s : str) : list str :=
    match s with
    | [] => if is_nil cur then [] else [rev cur]
    | c :: s' =>
        if is_line_break c
        then rev cur ::
             match s' with
             | d :: s'' => if N.eqb c 13 && N.eqb d 10 then splitlines_aux [] s''
                           else splitlines_aux [] s'
             | [] => []
             end
        else splitlines_aux (c :: cur) s'
    end.
  Definition splitlines (s : str) : list str := splitlines_aux [] s.
  (** [sep.join(l)] *)
  Fixpoint join (sep : str) (l : list str) : str :=
    match l with [] => [] | [x] => x | x :: l' => x ++ sep ++ join sep l' end.
  (** rst.py 41-48: [indent_lines] with the default [indent_length] *)
  Definition indent_lines (s : str) : str :=
    join [LF] (map (fun l => str_times indent_char 4 ++ l) (splitlines s)).

  Definition add_ind (z : Z) (st : rst) : rst := RS (r_buf st) (r_last st) (r_ind st + z).

  (** rst.py 83-92; [node.destination] None cannot be concatenated *)
  Definition r_image (d : ndata) (entering : bool) (st : rst) : res rst :=
    let* dest := of_option TypeError (n_destination d) in
    Ok (if entering
        then r_lit (u ":alt: ") (add_ind 4 (r_cr (r_lit (u ".. image:: " ++ dest) st)))
        else add_ind (-4) st).

  (** rst.py 99-115 *)
  Definition r_code_block (d : ndata) (st : rst) : res rst :=
    let info_words := if truthy (n_info d) then split_ws (or_empty (n_info d)) else [] in
    let directive := u ".. code::" ++
                     match info_words with
                     | w :: _ => if is_nil w then [] else u " " ++ w
                     | [] => []
                     end in
    let st1 := r_cr (r_cr (r_lit directive (r_cr st))) in
    let* l := of_option AttributeError (n_literal d) in
    Ok (r_cr (r_lit (indent_lines l) st1)).

  (** rst.py 121-129 *)
  Definition r_item (d : ndata) (entering : bool) (st : rst) : res rst :=
    let* ld := of_option KeyError (n_list_data d) in
    let tagname := match ld_type ld with bullet => u "* " | ordered => u "#. " end in
    Ok (if entering then add_ind (Z.of_nat (length tagname)) (r_lit tagname st)
        else r_cr (add_ind (- Z.of_nat (length tagname)) st)).

  (** rst.py 138-151: the list of heading characters, indexed by [level - 1]; index -1 is the
      last one, as is an index that is too large *)
  Definition heading_char (level : option nat) : res N :=
    match level with
    | None => Err TypeError
    | Some O => Ok 34%N
    | Some (S n) => Ok (nth n (u "#*=-^""") 34%N)
    end.
  (** rst.py 137-161 *)
  Definition r_heading (d : ndata) (kids : list tree) (entering : bool) (st : rst) : res rst :=
    let* c := heading_char (n_level d) in
    let* first := of_option AttributeError (hd_error kids) in
    let* l := of_option TypeError (n_literal (t_data first)) in
    let banner := repeat c (length l) in
    Ok (if entering then r_cr st else r_cr (r_lit banner (r_cr st))).

  (** rst.py 52-161: the method named like the node type, if there is one *)
  Definition rst_node (t : tree) (anc : list ndata) (entering : bool) (st : rst) : res rst :=
    let '(T d kids) := t in
    match n_t d with
    | document => Ok st
    | softbreak => Ok (r_cr st)
    | linebreak => Ok (r_cr (r_cr st))
    | text => r_out_opt (n_literal d) st
    | emph => Ok (r_lit (u "*") st)
    | strong => Ok (r_lit (u "**") st)
    | paragraph =>
        match anc with
        | [] => Err AttributeError
        | pa :: _ => Ok (if ntype_eqb (n_t pa) item then st else r_cr st)
        end
    | link =>
        Ok (if entering then r_lit (u "`") st
            else r_lit (u " <" ++ match n_destination d with Some s => s | None => u "None" end ++ u ">`_") st)
    | image => r_image d entering st
    | code => let* st1 := r_out_opt (n_literal d) (r_lit (u "``") st) in Ok (r_lit (u "``") st1)
    | code_block => r_code_block d st
    | list_ => Ok (if entering then r_cr st else st)
    | item => r_item d entering st
    | block_quote => Ok (add_ind (if entering then 4 else -4) st)
    | heading => r_heading d kids entering st
    | thematic_break | html_block | html_inline | custom_inline | custom_block => Ok st
    end.

  (** renderer.py 15-20 *)
  Fixpoint rst_events (evs : list event) (st : rst) : res rst :=
    match evs with
    | [] => Ok st
    | EV t entering anc :: evs' =>
        let* st1 := rst_node t anc entering st in rst_events evs' st1
    end.
  (** renderer.py 5-22 *)
  Definition rst_render (r : rst) (ast : tree) : res (str * rst) :=
    let* st := rst_events (walker ast) (RS [] [LF] (r_ind r)) in
    Ok (r_buf st, st).
End Rst.
