(** Filename templates: surfalize/batch.py:36-178 (_Token, FilenameParser). *)
From Coq Require Import String ZArith Bool.
From Coq Require Import List.
From Verif Require Import Base ModelBytes ModelUnits ModelSur ModelFormats.
Import ListNotations.
Local Open Scope Z_scope.

(** batch.py:36-58 _Token *)
Record token := mkToken { t_str : pystr; t_name : pystr; t_dtype : pystr; t_prefix : pystr; t_suffix : pystr }.
(** batch.py:52-58 extract: fewer than two parts raise ParsingError, more than four cannot be unpacked (ValueError) *)
Definition make_token (s : pystr) : res token :=
  match split_on 124 s with
  | [n; d] => Ok (mkToken s n d [] [])
  | [n; d; p] => Ok (mkToken s n d p [])
  | [n; d; p; q] => Ok (mkToken s n d p q)
  | [] | [_] => Err ParsingError
  | _ => Err ValueError
  end.

(** batch.py:85-120 parse_template, the loop with its local variables; [tokens] and [seps] are accumulated in front. *)
Record pstate := mkSt { st_tokens : list token; st_seps : list pystr; st_started : bool; st_sep : pystr; st_token : pystr }.
(** one iteration of the loop of parse_template, batch.py:99-115 *)
Definition parse_char (st : pstate) (c : Z) : res pstate :=
  if c =? 60 then
    if st_started st then Err ParsingError
    else Ok (mkSt (st_tokens st) (st_sep st :: st_seps st) true [] [])
  else if c =? 62 then
    rbind (make_token (st_token st)) (fun t => Ok (mkSt (t :: st_tokens st) (st_seps st) false (st_sep st) (st_token st)))
  else if st_started st then Ok (mkSt (st_tokens st) (st_seps st) true (st_sep st) (st_token st ++ [c]))
  else Ok (mkSt (st_tokens st) (st_seps st) false (st_sep st ++ [c]) (st_token st)).
(** the loop of parse_template, batch.py:99-115 *)
Fixpoint parse_loop (st : pstate) (s : pystr) : res pstate :=
  match s with [] => Ok st | c :: s' => rbind (parse_char st c) (fun st' => parse_loop st' s') end.
(** batch.py:85-120 *)
Definition parse_template (s : pystr) : res (list token * list pystr) :=
  rbind (parse_loop (mkSt [] [] false [] []) s) (fun st =>
    if st_started st then Err ParsingError else Ok (rev (st_tokens st), rev (st_sep st :: st_seps st))).

(** batch.py:77-81 TYPES *)
Inductive kind := KFloat | KInt | KStr.
(** TYPES[dtype], batch.py:76-80 *)
Definition type_re (k : kind) : pystr :=
  match k with KFloat => str "\d+(?:(?:\.|,)\d+)?" | KInt => str "\d+" | KStr => str ".+" end.
(** TYPES[token.dtype], KeyError turned into ParsingError, batch.py:141-145 *)
Definition kind_of (dtype : pystr) : res kind :=
  if zs_eqb dtype (str "float") then Ok KFloat else if zs_eqb dtype (str "int") then Ok KInt
  else if zs_eqb dtype (str "str") then Ok KStr else Err ParsingError.
(** batch.py:122-154 construct_regex: the text of the regular expression *)
Fixpoint rmapl {A B} (f : A -> res B) (l : list A) : res (list B) :=
  match l with [] => Ok [] | x :: l' => rbind (f x) (fun y => rmap (cons y) (rmapl f l')) end.
(** the named group of one token, batch.py:140-146 *)
Definition group_re (name : pystr) (k : kind) : pystr := str "(?P<" ++ name ++ [62] ++ type_re k ++ [41].
(** the pattern of one token with prefix and suffix, batch.py:138-148 *)
Definition pattern_of (t : token) : res pystr :=
  rbind (kind_of (t_dtype t)) (fun k => Ok (t_prefix t ++ group_re (t_name t) k ++ t_suffix t)).
(** separators and patterns in turn, batch.py:149-152 *)
Fixpoint interleave (ps seps : list pystr) : pystr :=
  match ps, seps with p :: ps', s :: seps' => s ++ p ++ interleave ps' seps' | _, _ => [] end.
(** batch.py:122-153 *)
Definition construct_regex (tokens : list token) (seps : list pystr) : res pystr :=
  rbind (rmapl pattern_of tokens) (fun ps => Ok (interleave ps seps ++ last seps [])).

(** *** Python's re for the expressions that occur: ordinary characters, '.', and the named groups above.  Any other special
    character is outside the model ([None]).  \d is restricted to ASCII digits. *)
Inductive item := ILit (c : Z) | IAny | IGroup (name : pystr) (k : kind).
(** the special characters ^ $ * + ? { } [ ] \ | ( ) *)
Definition special (c : Z) : bool := existsb (Z.eqb c) [94; 36; 42; 43; 63; 123; 125; 91; 93; 92; 124; 40; 41].
(** consuming a literal (helper of the parser of regular expressions) *)
Fixpoint strip_prefix (p s : pystr) : option pystr :=
  match p, s with
  | [], _ => Some s
  | x :: p', y :: s' => if x =? y then strip_prefix p' s' else None
  | _, _ => None
  end.
(** the text up to a character (helper of the parser of regular expressions) *)
Fixpoint until (c : Z) (s : pystr) : option (pystr * pystr) :=
  match s with
  | [] => None
  | x :: s' => if x =? c then Some ([], s') else option_map (fun p => (x :: fst p, snd p)) (until c s')
  end.
(** re.compile of the inside of a named group: one of the three patterns of batch.py:76-80 *)
Definition group_body (s : pystr) : option (kind * pystr) :=
  match strip_prefix (type_re KFloat ++ [41]) s with
  | Some r => Some (KFloat, r)
  | None => match strip_prefix (type_re KInt ++ [41]) s with
            | Some r => Some (KInt, r)
            | None => option_map (pair KStr) (strip_prefix (type_re KStr ++ [41]) s)
            end
  end.
(** re.compile of a pattern made by construct_regex, as df[column].str.extract (batch.py:172) does it *)
Fixpoint compile (fuel : nat) (s : pystr) : option (list item) :=
  match fuel with
  | O => None
  | S n =>
    match s with
    | [] => Some []
    | c :: s' =>
      match strip_prefix (str "(?P<") s with
      | Some r => match until 62 r with
                  | None => None
                  | Some (name, r') => match group_body r' with
                                       | None => None
                                       | Some (k, r'') => option_map (cons (IGroup name k)) (compile n r'')
                                       end
                  end
      | None => if special c then None
                else if c =? 46 then option_map (cons IAny) (compile n s')
                else option_map (cons (ILit c)) (compile n s')
      end
    end
  end.

(** The ways a group can match at the start of [s], in the order in which backtracking tries them (greedy). *)
Fixpoint span (p : Z -> bool) (s : pystr) : pystr * pystr :=
  match s with [] => ([], []) | c :: s' => if p c then let (a, b) := span p s' in (c :: a, b) else ([], s) end.
(** splits of a run of characters satisfying [p], longest first, at least one character *)
Definition runs (p : Z -> bool) (s : pystr) : list (pystr * pystr) :=
  let n := length (fst (span p s)) in
  map (fun i => (firstn (n - i) s, skipn (n - i) s)) (seq 0 n).
(** the decimal separators of the pattern for floats, batch.py:77 *)
Definition is_sep (c : Z) : bool := (c =? 46) || (c =? 44).
(** the ways the pattern of one type matches a prefix, in the order in which Python's re tries them (batch.py:76-80) *)
Definition ways (k : kind) (s : pystr) : list (pystr * pystr) :=
  match k with
  | KInt => runs is_digit s
  | KStr => runs (fun c => negb (c =? 10)) s
  | KFloat => flat_map (fun p => match snd p with
                | c :: r => (if is_sep c then map (fun q => (fst p ++ c :: fst q, snd q)) (runs is_digit r) else []) ++ [p]
                | [] => [p]
                end) (runs is_digit s)
  end.
(** the first alternative that succeeds (backtracking) *)
Fixpoint first_some {A B} (f : A -> option B) (l : list A) : option B :=
  match l with [] => None | x :: l' => match f x with Some y => Some y | None => first_some f l' end end.
(** re.match at the beginning of [s]: the text of every group *)
Fixpoint rematch (items : list item) (s : pystr) : option (list (pystr * pystr)) :=
  match items with
  | [] => Some []
  | ILit c :: r => match s with x :: s' => if x =? c then rematch r s' else None | [] => None end
  | IAny :: r => match s with x :: s' => if x =? 10 then None else rematch r s' | [] => None end
  | IGroup name k :: r => first_some (fun p => option_map (cons (name, fst p)) (rematch r (snd p))) (ways k s)
  end.
(** re.search: the leftmost start that matches *)
Fixpoint research (items : list item) (s : pystr) : option (list (pystr * pystr)) :=
  match rematch items s with
  | Some g => Some g
  | None => match s with [] => None | _ :: s' => research items s' end
  end.

(** *** batch.py:156-178 extract_from on one filename.  Group names must be distinct identifiers (re.error), there must be a
    group (pandas: ValueError).  The column conversions: astype('int') raises ValueError for a name that does not
    match, OverflowError beyond 64 bits; [tofloat] is float(). *)
Inductive cellv := CInt (z : Z) | CFloat (text : pystr) | CStr (s : pystr) | CNaN.
(** the first character of an identifier, as group names must be (batch.py:140; ASCII only) *)
Definition ident_start (c : Z) : bool := ((65 <=? c) && (c <=? 90)) || ((97 <=? c) && (c <=? 122)) || (c =? 95).
(** str.isidentifier of a group name (ASCII only) *)
Definition identifier (s : pystr) : bool :=
  match s with c :: s' => ident_start c && forallb (fun x => ident_start x || is_digit x) s' | [] => false end.
(** group names must not be used twice (re.compile) *)
Fixpoint distinct (l : list pystr) : bool :=
  match l with [] => true | x :: l' => negb (existsb (zs_eqb x) l') && distinct l' end.
(** the exception of re.compile *)
Definition re_error : exn := OtherError "re.error".
(** the text of a named group of the match; NaN (None) without match (pandas str.extract, batch.py:172) *)
Definition group_text (g : option (list (pystr * pystr))) (name : pystr) : option pystr :=
  match g with
  | None => None
  | Some l => option_map snd (find (fun p => zs_eqb (fst p) name) l)
  end.
(** batch.py:173-176: replacing the comma, astype(dtype) *)
Definition convert_cell (k : kind) (text : option pystr) : res cellv :=
  match k, text with
  | KInt, None => Err ValueError
  | KInt, Some t => rbind (int_parse t) (fun z => if z <? 2 ^ 63 then Ok (CInt z) else Err OverflowError)
  | KFloat, None => Ok CNaN
  | KFloat, Some t => Ok (CFloat (map (fun c => if c =? 44 then 46 else c) t))     (* float() of this text *)
  | KStr, None => Ok (CStr (str "nan"))
  | KStr, Some t => Ok (CStr t)
  end.
(** [None]: the template is outside the modelled fragment of re *)
Definition extract (template filename : pystr) : option (res (list (pystr * cellv))) :=
  match parse_template template with
  | Err e => Some (Err e)
  | Ok (tokens, seps) =>
    match construct_regex tokens seps with
    | Err e => Some (Err e)
    | Ok re =>
      match compile (S (length re)) re with
      | None => None
      | Some items =>
        let names := map t_name tokens in
        if negb (forallb identifier names && distinct names) then Some (Err re_error)
        else if Nat.eqb (length tokens) 0 then Some (Err ValueError)
        else let g := research items filename in
             Some (rmapl (fun t => rbind (kind_of (t_dtype t)) (fun k =>
                           rmap (pair (t_name t)) (convert_cell k (group_text g (t_name t))))) tokens)
      end
    end
  end.
