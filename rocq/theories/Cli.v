(** * Model of cmark.py, the command line tool *)
From Verif Require Import Base Regex Common NormRef Node Inlines Blocks Html Rst Dump Main.

(** Where [-o] sends the output (cmark.py 21-26): the option absent (standard output), given with the
    name of a file, or given without a name ([nargs="?"] without [const], so that [args.o] is None). *)
Inductive dest := Stdout | OutFile | NoName.
(** The parsed arguments (cmark.py 27-29); [argparse] itself is not modelled. *)
Record cli_args := Args { a_o : dest; a_a : bool; a_aj : bool }.
(** What a run leaves behind: the text on standard output, and the content of the file named by [-o]
    (None: no file was named). Opening a file with [FileType('w')] empties it. *)
Record effect := Effect { e_stdout : str; e_file : option str }.
Definition opened (d : dest) : option str := match d with OutFile => Some [] | _ => None end.

(** cmark.py 18: a file opened by [FileType('r')], or standard input, is read in text mode with
    universal newlines: a carriage return, with a line feed behind it or not, is read as a line feed. *)
Fixpoint universal (s : str) : str :=
  match s with
  | [] => []
  | c :: r =>
      if N.eqb c 13 then
        match r with
        | d :: r' => if N.eqb d LF then LF :: universal r' else LF :: universal r
        | [] => [LF]
        end
      else c :: universal r
  end.
(** cmark.py 34: iterating over a file gives its lines, each with its line feed *)
Fixpoint file_lines (s : str) : list str :=
  match s with
  | [] => []
  | c :: r =>
      if N.eqb c LF then [c] :: file_lines r
      else match file_lines r with l :: ls => (c :: l) :: ls | [] => [[c]] end
  end.
(** cmark.py 33-36: [data] *)
Definition read_data (content : str) : str := concat (file_lines (universal content)).

(** [o.write(x)]: None has no attribute [write] *)
Definition o_write (d : dest) (x : str) : res effect :=
  match d with
  | Stdout => Ok (Effect x None)
  | OutFile => Ok (Effect [] (Some x))
  | NoName => Err AttributeError
  end.

(** cmark.py 30-49: the run on parsed arguments and the content of the input. The encoding of the
    output, and [exit()], which ends the process with status 0, are not modelled. *)
Definition cmark_main (args : cli_args) (content : str) : res effect :=
  let data := read_data content in
  let* ast := parse_doc false data in
  if negb (a_a args) && negb (a_aj args)
  then let* r := render_html default_opts ast in o_write (a_o args) r
  else if a_a args then Ok (Effect (dumpAST ast) (opened (a_o args)))
  else let* r := dumpJSON ast in o_write (a_o args) r.
