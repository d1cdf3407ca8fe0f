(** * Property theorems about the command line tool *)
From Verif Require Import Base Regex Common NormRef Node Inlines Blocks Html Rst Dump Main Cli
  Spec SpecCli CliFacts.

(** ** C60 *)
Theorem C60_command_line :
  forall args content, last_opt content <> Some 13%N -> a_o args <> NoName ->
    cmark_main args content =
    let* out := commonmark content (format_of args) in Ok (delivered (a_o args) out).
Proof. exact cmark_library. Qed.
Print Assumptions C60_command_line.

(** [-o] without the name of a file *)
Theorem C60_no_name :
  forall args content out, last_opt content <> Some 13%N -> a_o args = NoName ->
    commonmark content (format_of args) = Ok out ->
    cmark_main args content = if a_a args then Ok (delivered Stdout out) else Err AttributeError.
Proof. exact cmark_no_name. Qed.
Print Assumptions C60_no_name.

(** A bare carriage return at the end of the input is read as a line feed, which the library does not do. *)
Theorem C60_final_cr_refuted :
  exists content, cmark_main (Args Stdout false false) content <>
    let* out := commonmark content (u "html") in Ok (delivered Stdout out).
Proof. exists (u "```" ++ [13%N] ++ u "a" ++ [13%N]). vm_compute. discriminate. Qed.
Print Assumptions C60_final_cr_refuted.

Definition c60_content : str := u "# a" ++ [13; 10]%N ++ u "b" ++ [13]%N ++ u "c" ++ [10]%N.
Example C60_case :
  last_opt c60_content <> Some 13%N /\
  cmark_main (Args OutFile false false) c60_content =
    Ok (Effect [] (Some (u "<h1>a</h1>" ++ [LF] ++ u "<p>b" ++ [LF] ++ u "c</p>" ++ [LF]))) /\
  (exists x, cmark_main (Args OutFile true true) c60_content = Ok (Effect (u "[document]" ++ x) (Some []))) /\
  (exists x, cmark_main (Args OutFile false true) c60_content = Ok (Effect [] (Some (u "[" ++ x)))) /\
  (exists out, commonmark c60_content (u "html") = Ok out /\
     cmark_main (Args NoName false false) c60_content = Err AttributeError).
Proof.
  split; [discriminate|]. split; [vm_compute; reflexivity|]. split; [eexists; vm_compute; reflexivity|].
  split; [eexists; vm_compute; reflexivity|]. eexists. split; vm_compute; reflexivity.
Qed.
