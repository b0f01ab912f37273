(** Python's [str(args)] and [str(kwargs.items())] used to build the cache key (surfalize/cache.py:26),
    for the argument values the surfalize methods accept: None, bool, int, float, str, tuples and lists.
    Simplifications: characters are 8-bit (Latin-1); a float is represented by its [repr] token
    (CPython's repr is injective on non-nan floats), see [wf_float]; numpy scalars/arrays are not modelled
    (str of a large array abbreviates, so arrays are not faithful keys). *)
From Coq Require Import String Ascii List Bool ZArith NArith DecimalString DecimalZ.
Import ListNotations.
Local Open Scope char_scope.

(** the Python values that occur as arguments of cached methods (cache.py:26) *)
Inductive pyval :=
| PNone | PBool (b : bool) | PInt (z : Z) | PFloat (tok : list ascii) | PStr (s : list ascii)
| PTuple (l : list pyval) | PList (l : list pyval).

(** a Python str as a list of characters *)
Definition chars (s : string) : list ascii := list_ascii_of_string s.

(** repr(int) *)
Definition repr_int (z : Z) : list ascii := chars (NilZero.string_of_int (Z.to_int z)).

(** ord(c) *)
Definition code (c : ascii) : N := N_of_ascii c.
(** one lower-case hexadecimal digit of an escape sequence in repr(str) *)
Definition hexdigit (n : N) : ascii := ascii_of_N (if (n <? 10)%N then 48 + n else 87 + n).
(** Latin-1 characters that [str.isprintable] accepts. *)
Definition printable (c : ascii) : bool :=
  let n := code c in
  ((32 <=? n) && (n <=? 126) || (161 <=? n) && negb (n =? 173))%N.

(** repr(str): quote selection and escaping of unicode_repr in CPython. *)
Definition esc1 (q c : ascii) : list ascii :=
  if Ascii.eqb c "\" then ["\"; "\"]
  else if Ascii.eqb c q then ["\"; q]
  else if (code c =? 10)%N then ["\"; "n"]
  else if (code c =? 13)%N then ["\"; "r"]
  else if (code c =? 9)%N then ["\"; "t"]
  else if printable c then [c]
  else ["\"; "x"; hexdigit (code c / 16); hexdigit (code c mod 16)].
(** the character ' *)
Definition squote : ascii := "'".
(** the double quote character *)
Definition dquote : ascii := """".
(** repr(str) uses double quotes if the text contains a single quote and no double quote *)
Definition quote_for (s : list ascii) : ascii :=
  if existsb (Ascii.eqb squote) s && negb (existsb (Ascii.eqb dquote) s) then dquote else squote.
(** repr(s) of a str (CPython unicode_repr), part of cache.py:26 *)
Definition repr_str (s : list ascii) : list ascii :=
  let q := quote_for s in q :: flat_map (esc1 q) s ++ [q].

Section Items.
  Variable repr : pyval -> list ascii.
  (** the elements of a list or tuple in repr, separated by a comma and a blank *)
  Fixpoint items (l : list pyval) : list ascii :=
    match l with
    | [] => []
    | [x] => repr x
    | x :: l' => repr x ++ [","; " "] ++ items l'
    end.
End Items.

(** repr(v), part of cache.py:26 *)
Fixpoint repr (v : pyval) : list ascii :=
  match v with
  | PNone => chars "None"
  | PBool true => chars "True"
  | PBool false => chars "False"
  | PInt z => repr_int z
  | PFloat tok => tok
  | PStr s => repr_str s
  | PTuple [x] => ["("] ++ repr x ++ [","; ")"]
  | PTuple l => ["("] ++ items repr l ++ [")"]
  | PList l => ["["] ++ items repr l ++ ["]"]
  end%char.

(** Tokens repr(float) can produce: digits, sign, point, exponent, inf, nan; never a plain integer. *)
Definition float_char (c : ascii) : bool :=
  let n := code c in
  (((48 <=? n) && (n <=? 57)) || (n =? 43) || (n =? 45) || (n =? 46) || (n =? 101)
   || (n =? 105) || (n =? 110) || (n =? 102) || (n =? 97))%N.
(** characters of repr(int): digits and the sign *)
Definition int_char (c : ascii) : bool := let n := code c in (((48 <=? n) && (n <=? 57)) || (n =? 45))%N.
(** whether a token is one repr(float) can produce: it has characters and is not that of an integer *)
Definition wf_float (tok : list ascii) : bool :=
  forallb float_char tok && existsb (fun c => negb (int_char c)) tok.

(** values whose float tokens are those of repr(float) *)
Fixpoint wf (v : pyval) : bool :=
  match v with
  | PFloat tok => wf_float tok
  | PTuple l | PList l => forallb wf l
  | _ => true
  end.

(** str(args), cache.py:26 *)
Definition py_str_args (args : list pyval) : string := string_of_list_ascii (repr (PTuple args)).
(** str(kwargs.items()), cache.py:26 *)
Definition py_str_kwargs (kw : list (string * pyval)) : string :=
  string_of_list_ascii
    (chars "dict_items(" ++ repr (PList (map (fun '(k, v) => PTuple [PStr (chars k); v]) kw)) ++ chars ")").
