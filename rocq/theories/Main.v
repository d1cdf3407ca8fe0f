(** * Model of main.py *)
From Verif Require Import Base Regex Common NormRef Node Inlines Blocks Html Rst Dump.

(** What a call does: the value returned (None for Python's None) and the text printed. *)
Record outcome := Out { o_return : option str; o_print : str }.

(** The defaults: [Parser()], [HtmlRenderer()], [ReStructuredTextRenderer()] *)
Definition default_opts : hopts := html_options None false false.
Definition parse_doc (smart : bool) (s : str) : res tree :=
  let* (t, _) := parse (new_parser smart) s in Ok t.
Definition render_html (o : hopts) (t : tree) : res str :=
  let* (s, _) := html_render o new_html t in Ok s.
Definition render_rst (t : tree) : res str :=
  let* (s, _) := rst_render [SP] new_rst t in Ok s.

(** main.py 20-41: [commonmark(text, format)] *)
Definition commonmark (s fmt : str) : res outcome :=
  let* ast := parse_doc false s in
  if negb (existsb (str_eqb fmt) [u "html"; u "json"; u "ast"; u "rst"]) then Err ValueError
  else if str_eqb fmt (u "html") then let* r := render_html default_opts ast in Ok (Out (Some r) [])
  else if str_eqb fmt (u "json") then let* r := dumpJSON ast in Ok (Out (Some r) [])
  else if str_eqb fmt (u "ast") then Ok (Out None (dumpAST ast))
  else let* r := render_rst ast in Ok (Out (Some r) []).

(** Markdown to HTML with given options, the two-step API of main.py 5-9 *)
Definition md_to_html (smart : bool) (o : hopts) (s : str) : res str :=
  let* ast := parse_doc smart s in render_html o ast.
