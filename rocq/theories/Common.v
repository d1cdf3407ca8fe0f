(** * Model of entitytrans.py (functions) and common.py *)
From Verif Require Import Base Regex Entities.
Local Open Scope N_scope.

(** ** entitytrans.py / html.unescape *)

(** entitytrans.py 2340-2342: [_charref] *)
Definition charref_re : regex :=
  re_compile noflags (u "&(#[0-9]+;?|#[xX][0-9a-fA-F]+;?|[^\t\n\f <&#;]{1,32};?)").

Definition assoc_str {A} (k : str) (l : list (str * A)) : option A :=
  match find (fun p => str_eqb (fst p) k) l with Some p => Some (snd p) | None => None end.
Definition assoc_N {A} (k : N) (l : list (N * A)) : option A :=
  match find (fun p => N.eqb (fst p) k) l with Some p => Some (snd p) | None => None end.

(** [int(s)], [int(s, 16)] on ASCII digit strings *)
Definition int_of_base (base : N) (s : str) : N :=
  fold_left (fun acc c => acc * base + match hex_value c with Some d => d | None => 0 end) s 0.

(** [s.rstrip(';')] *)
Definition rstrip_semi (s : str) : str := strip_right (N.eqb 59) s.

(** entitytrans.py 2314-2328 (numeric branch of [_replace_charref]) *)
Definition charref_num (num : N) : str :=
  match assoc_N num invalid_charrefs with
  | Some v => v
  | None =>
      if in_range 55296 57343 num || N.ltb 1114111 num then [65533]
      else if existsb (N.eqb num) invalid_codepoints then []
      else [num]
  end.

(** entitytrans.py 2333-2335: [for x in range(len(s)-1, 1, -1)] *)
Fixpoint named_prefix (tbl : list (str * str)) (s : str) (x : nat) : option str :=
  match x with
  | O => None
  | S x' =>
      if Nat.leb x 1 then None
      else match assoc_str (firstn x s) tbl with
           | Some v => Some (v ++ skipn x s)
           | None => named_prefix tbl s x'
           end
  end.

(** entitytrans.py 2308-2337: [_replace_charref]; [s] is group(1), the text after the '&' *)
Definition replace_charref (tbl : list (str * str)) (s : str) : str :=
  match s with
  | 35 :: r =>
      match r with
      | c :: r' => if N.eqb c 120 || N.eqb c 88
                   then charref_num (int_of_base 16 (rstrip_semi r'))
                   else charref_num (int_of_base 10 (rstrip_semi r))
      | [] => charref_num 0      (* not reached: the pattern has at least one digit *)
      end
  | _ =>
      match assoc_str s tbl with
      | Some v => v
      | None => match named_prefix tbl s (length s - 1) with
                | Some v => v
                | None => 38 :: s
                end
      end
  end.

(** entitytrans.py 2345-2355: [_unescape] *)
Definition unescape_with (tbl : list (str * str)) (s : str) : str :=
  if mem_str 38 s
  then re_sub charref_re (fun m => match rm_cap m 1 with
                                   | Some g => replace_charref tbl g
                                   | None => rm_group m end) s
  else s.

(** The repository's own port (used on Python < 3.4). *)
Definition entitytrans_unescape : str -> str := unescape_with html5_table.

(** common.py 11-20, inlines.py 10-19: on Python >= 3.4 [HTMLunescape] is [html.unescape] of
    the standard library, the original of that port.  Its table has one more key, [nbsp]
    without semicolon, which the port lacks. *)
Definition html5_stdlib : list (str * str) := (u "nbsp", [160]) :: html5_table.
Definition html_unescape : str -> str := unescape_with html5_stdlib.

(** ** common.py *)

(** common.py 22 *)
Definition ENTITY := u "&(?:#x[a-f0-9]{1,6}|#[0-9]{1,7}|[a-z][a-z0-9]{1,31});".
(** common.py 24-40 *)
Definition TAGNAME := u "[A-Za-z][A-Za-z0-9-]*".
Definition ATTRIBUTENAME := u "[a-zA-Z_:][a-zA-Z0-9:._-]*".
Definition UNQUOTEDVALUE := u "[^""'=<>`\x00-\x20]+".
Definition SINGLEQUOTEDVALUE := u "'[^']*'".
Definition DOUBLEQUOTEDVALUE := u """[^""]*""".
Definition ATTRIBUTEVALUE :=
  u "(?:" ++ UNQUOTEDVALUE ++ u "|" ++ SINGLEQUOTEDVALUE ++ u "|" ++ DOUBLEQUOTEDVALUE ++ u ")".
Definition ATTRIBUTEVALUESPEC := u "(?:" ++ u "\s*=" ++ u "\s*" ++ ATTRIBUTEVALUE ++ u ")".
Definition ATTRIBUTE := u "(?:" ++ u "\s+" ++ ATTRIBUTENAME ++ ATTRIBUTEVALUESPEC ++ u "?)".
Definition OPENTAG := u "<" ++ TAGNAME ++ ATTRIBUTE ++ u "*" ++ u "\s*/?>".
Definition CLOSETAG := u "</" ++ TAGNAME ++ u "\s*[>]".
Definition HTMLCOMMENT := u "<!---->|<!--(?:-?[^>-])(?:-?[^-])*-->".
Definition PROCESSINGINSTRUCTION := u "[<][?].*?[?][>]".
Definition DECLARATION := u "<![A-Z]+" ++ u "\s+[^>]*>".
Definition CDATA := u "<!\[CDATA\[[\s\S]*?\]\]>".
Definition HTMLTAG :=
  u "(?:" ++ OPENTAG ++ u "|" ++ CLOSETAG ++ u "|" ++ HTMLCOMMENT ++ u "|" ++
  PROCESSINGINSTRUCTION ++ u "|" ++ DECLARATION ++ u "|" ++ CDATA ++ u ")".
(** common.py 41-47 *)
Definition reHtmlTag : regex := re_compile IGNORECASE (u "^" ++ HTMLTAG).
Definition reBackslashOrAmp : regex := re_compile noflags (u "[\\&]").
Definition ESCAPABLE := u "[!""#$%&'()*+,./:;<=>?@[\\\]^_`{|}~-]".
Definition reEntityOrEscapedChar : regex :=
  re_compile IGNORECASE (u "\\" ++ ESCAPABLE ++ u "|" ++ ENTITY).
Definition reXmlSpecial : regex := re_compile noflags (u "[&<>""]").

(** common.py 50-54: [unescape_char]; the pattern guarantees the second character *)
Definition unescape_char (s : str) : str :=
  match s with
  | 92 :: c :: _ => [c]
  | _ => html_unescape s
  end.

(** common.py 57-65 *)
Definition unescape_string (s : str) : str :=
  if re_test reBackslashOrAmp s
  then re_sub reEntityOrEscapedChar (fun m => unescape_char (rm_group m)) s
  else s.

(** [uri.encode('utf-8')]: lone surrogates raise UnicodeEncodeError *)
Definition utf8_char (c : N) : res (list N) :=
  if N.ltb c 128 then Ok [c]
  else if N.ltb c 2048 then Ok [192 + c / 64; 128 + c mod 64]
  else if in_range 55296 57343 c then Err UnicodeEncodeError
  else if N.ltb c 65536 then Ok [224 + c / 4096; 128 + (c / 64) mod 64; 128 + c mod 64]
  else Ok [240 + c / 262144; 128 + (c / 4096) mod 64; 128 + (c / 64) mod 64; 128 + c mod 64].
Fixpoint utf8_encode (s : str) : res (list N) :=
  match s with
  | [] => Ok []
  | c :: s' => let* b := utf8_char c in let* r := utf8_encode s' in Ok (b ++ r)
  end.

Definition is_alnum (c : N) : bool := in_range 48 57 c || in_range 65 90 c || in_range 97 122 c.

(** [urllib.parse.quote]'s always-safe bytes and the [safe] argument, common.py 70 *)
Definition uri_safe (c : N) : bool := is_alnum c || mem_str c (u "_.-~") || mem_str c (u ";/@:+?=&()%#*,").
Definition hex_digit (d : N) : N := if N.ltb d 10 then 48 + d else 55 + d.
Definition quote_byte (b : N) : str :=
  if uri_safe b then [b] else [37; hex_digit (b / 16); hex_digit (b mod 16)].

(** common.py 68-89: [normalize_uri] (the Python 3 path; the [except] branch is for Python 2) *)
Definition normalize_uri (uri : str) : res str :=
  let* b := utf8_encode uri in Ok (flat_map quote_byte b).

(** common.py 92-101 *)
Definition unsafe_map : list (N * str) :=
  [(38, u "&amp;"); (60, u "&lt;"); (62, u "&gt;"); (34, u "&quot;")].
Definition replace_unsafe_char (s : str) : str :=
  match s with
  | [c] => match assoc_N c unsafe_map with Some v => v | None => s end
  | _ => s
  end.

(** common.py 104-113; the None case is [escape_xml_opt] *)
Definition escape_xml (s : str) : str :=
  if re_test reXmlSpecial s
  then re_sub reXmlSpecial (fun m => replace_unsafe_char (rm_group m)) s
  else s.
Definition escape_xml_opt (s : option str) : str :=
  match s with None => [] | Some s => escape_xml s end.
