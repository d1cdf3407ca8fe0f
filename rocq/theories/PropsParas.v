(** * Property theorems about paragraphs of several lines *)
From Verif Require Import Base Common Node Html Main Spec SpecTree SpecSame SpecLines ParaDoc SpecParas.

(** ** C50 *)

(** Lines of words make one paragraph, whatever the indentation of the lines behind the first.  A line that
    ends with two or more spaces or with a backslash ends with a hard break, any other with a soft one,
    which is rendered as the option says; the last line has none. *)
Theorem C50_line_breaks :
  forall o l, ho_sourcepos o = false -> para_ok l ->
    md_to_html false o (para_text l) = Ok (u "<p>" ++ lines_html (ho_softbreak o) l ++ u "</p>" ++ [10%N]).
Proof. exact lines_of_paragraph. Qed.
Print Assumptions C50_line_breaks.

Definition C50_lines : list para_line :=
  [PL 2 (u "one") (Spaces 1); PL 0 (u "2. two > a half") (Spaces 2); PL 5 (u "- three") Backslash; PL 0 (u "1.four") (Spaces 0); PL 1 (u "== five") Backslash].
Example C50_case :
  para_ok C50_lines /\
  para_text C50_lines = u "  one 
2. two > a half  
     - three\
1.four
 == five\
" /\
  md_to_html false default_opts (para_text C50_lines) = Ok (u "<p>one
2. two &gt; a half<br />
- three<br />
1.four
== five\</p>
").
Proof. split; [apply para_okb_ok; vm_compute; reflexivity|split; vm_compute; reflexivity]. Qed.

(** ** C51 *)

(** The same lines with a line of equals signs or hyphens below, indented by at most three spaces and perhaps
    followed by blanks, are a heading: of level one for equals signs, of level two for hyphens. *)
Theorem C51_setext_headings :
  forall o l a ul, ho_sourcepos o = false -> para_ok l -> a <= 3 ->
    (underline_of 61 ul -> md_to_html false o (para_text l ++ repeat 32%N a ++ ul ++ [10%N]) = Ok (u "<h1>" ++ lines_html (ho_softbreak o) l ++ u "</h1>" ++ [10%N])) /\
    (underline_of 45 ul -> md_to_html false o (para_text l ++ repeat 32%N a ++ ul ++ [10%N]) = Ok (u "<h2>" ++ lines_html (ho_softbreak o) l ++ u "</h2>" ++ [10%N])).
Proof. exact setext_levels. Qed.
Print Assumptions C51_setext_headings.

Example C51_case :
  underline_of 45 (u "---  ") /\
  para_text C50_lines ++ repeat 32%N 3 ++ u "---  " ++ [10%N] = u "  one 
2. two > a half  
     - three\
1.four
 == five\
   ---  
" /\
  md_to_html false default_opts (para_text C50_lines ++ repeat 32%N 3 ++ u "---  " ++ [10%N]) = Ok (u "<h2>one
2. two &gt; a half<br />
- three<br />
1.four
== five\</h2>
").
Proof.
  split; [|split; vm_compute; reflexivity]. exists 2, (u "  "). split; [reflexivity|]. repeat constructor.
Qed.
