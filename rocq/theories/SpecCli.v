(** * What the command line tool should do (C60)
    It writes what a call of the library on the content of the input returns to the place given by
    [-o]; what that call prints is on standard output. *)
From Verif Require Import Base Regex Common NormRef Node Inlines Blocks Html Rst Dump Main Cli.

(** the format asked for; [-a] is stronger than [-aj] *)
Definition format_of (args : cli_args) : str :=
  if a_a args then u "ast" else if a_aj args then u "json" else u "html".

(** the text returned (nothing for None) goes to the place given by [-o] *)
Definition delivered (d : dest) (out : outcome) : effect :=
  let r := match o_return out with Some r => r | None => [] end in
  match d with
  | OutFile => Effect (o_print out) (Some r)
  | _ => Effect (o_print out ++ r) None
  end.
