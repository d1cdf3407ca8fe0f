(** * Model of render/renderer.py and render/html.py *)
From Verif Require Import Base Regex Common Node.

(** ** State of a renderer *)

(** The options the HTML renderer reads, html.py 22-30.  A truthy ['softbreak'] replaces the
    default newline. *)
Record hopts := HO { ho_softbreak : str; ho_safe : bool; ho_sourcepos : bool }.
(** html.py 24: [options.get('softbreak') or '\n'] *)
Definition html_options (softbreak : option str) (safe sourcepos : bool) : hopts :=
  HO (if truthy softbreak then or_empty softbreak else [LF]) safe sourcepos.

(** [self.buf], [self.last_out], [self.disable_tags] *)
Record hst := HS { h_buf : str; h_last : str; h_dis : Z }.
(** html.py 22-30 ([buf] does not exist before the first [render]) *)
Definition new_html : hst := HS [] [LF] 0.

(** renderer.py 24-30 *)
Definition h_lit (s : str) (st : hst) : hst := HS (h_buf st ++ s) s (h_dis st).
(** renderer.py 32-34 *)
Definition h_cr (st : hst) : hst := if str_eqb (h_last st) [LF] then st else h_lit [LF] st.
(** html.py 32-33 and 216-217: [out] with [escape]; [escape_xml(None)] is the empty string *)
Definition h_out (s : option str) (st : hst) : hst := h_lit (escape_xml_opt s) st.

(** html.py 41-43 *)
Definition attr_text (a : str * str) : str := u " " ++ fst a ++ u "=""" ++ snd a ++ u """".
(** html.py 35-49: [tag] *)
Definition h_tag (name : str) (attrs : list (str * str)) (selfclosing : bool) (st : hst) : hst :=
  if Z.ltb 0 (h_dis st) then st
  else HS (h_buf st ++ u "<" ++ name ++ flat_map attr_text attrs ++
           (if selfclosing then u " /" else []) ++ u ">")
          (u ">") (h_dis st).
Definition h_tag0 (name : str) (st : hst) : hst := h_tag name [] false st.

(** html.py 11-19 *)
Definition reUnsafeProtocol : regex :=
  re_compile IGNORECASE (u "^javascript:|vbscript:|file:|data:").
Definition reSafeDataProtocol : regex :=
  re_compile IGNORECASE (u "^data:image\/(?:png|gif|jpeg|webp)").
Definition potentially_unsafe (url : str) : bool :=
  re_test reUnsafeProtocol url && negb (re_test reSafeDataProtocol url).

(** [self.options.get('safe') and potentially_unsafe(node.destination)]: a None destination
    makes [re.search] raise TypeError *)
Definition unsafe_dest (o : hopts) (dest : option str) : res bool :=
  if ho_safe o
  then let* d := of_option TypeError dest in Ok (potentially_unsafe d)
  else Ok false.

(** html.py 219-227: [attrs] *)
Definition attrs_of (o : hopts) (d : ndata) : list (str * str) :=
  if ho_sourcepos o
  then match n_sourcepos d with
       | Some ((l1, c1), (l2, c2)) =>
           [(u "data-sourcepos",
             str_of_nat l1 ++ u ":" ++ str_of_nat c1 ++ u "-" ++
             str_of_nat l2 ++ u ":" ++ str_of_nat c2)]
       | None => []
       end
  else [].

(** ** Node methods *)

(** html.py 63-75 *)
Definition h_link (o : hopts) (d : ndata) (entering : bool) (st : hst) : res hst :=
  let attrs := attrs_of o d in
  if entering
  then
    let* unsafe := unsafe_dest o (n_destination d) in
    let a1 := if unsafe then [] else [(u "href", escape_xml_opt (n_destination d))] in
    let a2 := if truthy (n_title d) then [(u "title", escape_xml_opt (n_title d))] else [] in
    Ok (h_tag (u "a") (attrs ++ a1 ++ a2) false st)
  else Ok (h_tag0 (u "/a") st).

Definition set_h_dis (z : Z) (st : hst) : hst := HS (h_buf st) (h_last st) z.

(** html.py 77-93 *)
Definition h_image (o : hopts) (d : ndata) (entering : bool) (st : hst) : res hst :=
  if entering
  then
    let* st1 :=
      if Z.eqb (h_dis st) 0
      then
        let* unsafe := unsafe_dest o (n_destination d) in
        Ok (if unsafe then h_lit (u "<img src="""" alt=""") st
            else h_lit (u "<img src=""" ++ escape_xml_opt (n_destination d) ++ u """ alt=""") st)
      else Ok st in
    Ok (set_h_dis (h_dis st1 + 1) st1)
  else
    let st1 := set_h_dis (h_dis st - 1) st in
    Ok (if Z.eqb (h_dis st1) 0
        then h_lit (u """ />")
               (if truthy (n_title d)
                then h_lit (u """ title=""" ++ escape_xml_opt (n_title d)) st1 else st1)
        else st1).

(** html.py 101-113; [anc]: the data of the ancestors, parent first *)
Definition h_paragraph (o : hopts) (d : ndata) (anc : list ndata) (entering : bool) (st : hst) : res hst :=
  match anc with
  | [] => Err AttributeError
  | _ :: gp =>
      let* tight :=
        match gp with
        | g :: _ => if ntype_eqb (n_t g) list_
                    then let* ld := of_option KeyError (n_list_data g) in Ok (ld_tight ld)
                    else Ok false
        | [] => Ok false
        end in
      Ok (if tight then st
          else if entering then h_tag (u "p") (attrs_of o d) false (h_cr st)
          else h_cr (h_tag0 (u "/p") st))
  end.

(** [str(node.level)] *)
Definition level_str (l : option nat) : str :=
  match l with Some n => str_of_nat n | None => u "None" end.

(** html.py 115-123 *)
Definition h_heading (o : hopts) (d : ndata) (entering : bool) (st : hst) : res hst :=
  let tagname := u "h" ++ level_str (n_level d) in
  Ok (if entering then h_tag tagname (attrs_of o d) false (h_cr st)
      else h_cr (h_tag0 (u "/" ++ tagname) st)).

(** html.py 125-128 *)
Definition h_code (d : ndata) (st : hst) : res hst :=
  Ok (h_tag0 (u "/code") (h_out (n_literal d) (h_tag0 (u "code") st))).

(** html.py 130-143 *)
Definition h_code_block (o : hopts) (d : ndata) (st : hst) : res hst :=
  let info_words := if truthy (n_info d) then split_ws (or_empty (n_info d)) else [] in
  let attrs := attrs_of o d ++
               match info_words with
               | w :: _ => if is_nil w then [] else [(u "class", u "language-" ++ escape_xml w)]
               | [] => []
               end in
  Ok (h_cr (h_tag0 (u "/pre") (h_tag0 (u "/code") (h_out (n_literal d)
       (h_tag (u "code") attrs false (h_tag0 (u "pre") (h_cr st))))))).

(** html.py 145-149 *)
Definition h_thematic_break (o : hopts) (d : ndata) (st : hst) : res hst :=
  Ok (h_cr (h_tag (u "hr") (attrs_of o d) true (h_cr st))).

(** html.py 151-160 *)
Definition h_block_quote (o : hopts) (d : ndata) (entering : bool) (st : hst) : res hst :=
  Ok (if entering then h_cr (h_tag (u "blockquote") (attrs_of o d) false (h_cr st))
      else h_cr (h_tag0 (u "/blockquote") (h_cr st))).

(** html.py 162-176 *)
Definition h_list (o : hopts) (d : ndata) (entering : bool) (st : hst) : res hst :=
  let* ld := of_option KeyError (n_list_data d) in
  let tagname := match ld_type ld with bullet => u "ul" | ordered => u "ol" end in
  Ok (if entering
      then
        let attrs := attrs_of o d ++
                     match ld_start ld with
                     | Some n => if N.eqb n 1 then [] else [(u "start", str_of_N n)]
                     | None => []
                     end in
        h_cr (h_tag tagname attrs false (h_cr st))
      else h_cr (h_tag0 (u "/" ++ tagname) (h_cr st))).

(** html.py 178-184 *)
Definition h_item (o : hopts) (d : ndata) (entering : bool) (st : hst) : res hst :=
  Ok (if entering then h_tag (u "li") (attrs_of o d) false st
      else h_cr (h_tag0 (u "/li") st)).

Definition omitted := u "<!-- raw HTML omitted -->".
(** html.py 186-190: [lit(None)] raises TypeError *)
Definition h_html_inline (o : hopts) (d : ndata) (st : hst) : res hst :=
  if ho_safe o then Ok (h_lit omitted st)
  else let* l := of_option TypeError (n_literal d) in Ok (h_lit l st).
(** html.py 192-198 *)
Definition h_html_block (o : hopts) (d : ndata) (st : hst) : res hst :=
  let* st1 := h_html_inline o d (h_cr st) in Ok (h_cr st1).

(** html.py 200-204 *)
Definition h_custom_inline (d : ndata) (entering : bool) (st : hst) : hst :=
  let s := if entering then n_on_enter d else n_on_exit d in
  if truthy s then h_lit (or_empty s) st else st.
(** html.py 206-212 *)
Definition h_custom_block (d : ndata) (entering : bool) (st : hst) : hst :=
  h_cr (h_custom_inline d entering (h_cr st)).

(** renderer.py 17-19: the method named like the node type, if there is one (there is none for
    [document]); html.py 53-54, 56-57, 59-61, 95-96, 98-99 are in line *)
Definition html_node (o : hopts) (d : ndata) (anc : list ndata) (entering : bool) (st : hst) : res hst :=
  match n_t d with
  | document => Ok st
  | text => Ok (h_out (n_literal d) st)
  | softbreak => Ok (h_lit (ho_softbreak o) st)
  | linebreak => Ok (h_cr (h_tag (u "br") [] true st))
  | link => h_link o d entering st
  | image => h_image o d entering st
  | emph => Ok (h_tag0 (if entering then u "em" else u "/em") st)
  | strong => Ok (h_tag0 (if entering then u "strong" else u "/strong") st)
  | paragraph => h_paragraph o d anc entering st
  | heading => h_heading o d entering st
  | code => h_code d st
  | code_block => h_code_block o d st
  | thematic_break => h_thematic_break o d st
  | block_quote => h_block_quote o d entering st
  | list_ => h_list o d entering st
  | item => h_item o d entering st
  | html_inline => h_html_inline o d st
  | html_block => h_html_block o d st
  | custom_inline => Ok (h_custom_inline d entering st)
  | custom_block => Ok (h_custom_block d entering st)
  end.

(** renderer.py 15-20: the loop over the walker's events *)
Fixpoint html_events (o : hopts) (evs : list event) (st : hst) : res hst :=
  match evs with
  | [] => Ok st
  | EV (T d _) entering anc :: evs' =>
      let* st1 := html_node o d anc entering st in html_events o evs' st1
  end.

(** renderer.py 5-22: [render]; the output and the renderer afterwards *)
Definition html_render (o : hopts) (r : hst) (ast : tree) : res (str * hst) :=
  let* st := html_events o (walker ast) (HS [] [LF] (h_dis r)) in
  Ok (h_buf st, st).
