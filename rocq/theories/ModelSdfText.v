(** surfalize/file/sdf.py:61-96: reading ASCII SDF files, complete (ModelFormats.v has the same function with conversions and data left open, which is enough for
    the files the library writes itself: those never get that far).  float(text) and the C function strtod used by np.fromstring are parameters.  Texts are ASCII:
    anything else fails in decode. *)
From Coq Require Import String Ascii ZArith Bool.
From Coq Require Import List.
From Verif Require Import Base ModelBytes ModelUnits ModelSur ModelFormats ModelGwy.
Import ListNotations.
Local Open Scope Z_scope.

(** str.strip of ASCII text *)
Definition strip (s : pystr) : pystr := rev (lstrip (rev (lstrip s))).
(** isspace of C, used by np.fromstring: the separators 28 ... 31 of str.isspace are not included *)
Definition c_space (c : Z) : bool := (c =? 32) || ((9 <=? c) && (c <=? 13)).
(** skipping white space before a number, np.fromstring in sdf.py:84 *)
Fixpoint c_lstrip (s : pystr) : pystr := match s with [] => [] | c :: s' => if c_space c then c_lstrip s' else s end.
(** str.startswith, and what follows *)
Fixpoint after_prefix (p s : pystr) : option pystr :=
  match p, s with
  | [], _ => Some s
  | x :: p', y :: s' => if x =? y then after_prefix p' s' else None
  | _, [] => None
  end.

(** int(text): blanks around, a sign, digits with single underscores between them *)
Definition py_digits (s : pystr) : res Z :=
  let parts := split_on 95 s in
  if forallb (fun p => negb (zs_eqb p []) && forallb ModelFormats.is_digit p) parts then Ok (dec_value (concat parts)) else Err ValueError.
(** int(value), sdf.py:73 with the types of 32-45 *)
Definition py_int (s : pystr) : res Z :=
  match strip s with
  | 43 :: t => py_digits t
  | 45 :: t => rmap Z.opp (py_digits t)
  | t => py_digits t
  end.

(** datetime.strptime(text, "%d%m%Y%H%M").  The regular expression of _strptime.py is
    (3[0-1]|[1-2]\d|0[1-9]|[1-9]| [1-9])(1[0-2]|0[1-9]|[1-9])(\d\d\d\d)(2[0-3]|[0-1]\d|\d)([0-5]\d|\d): the alternatives are tried in this order, with backtracking;
    the match must use up the text, and the date must exist. *)
Record date := mkDate { d_year : Z; d_month : Z; d_day : Z; d_hour : Z; d_minute : Z }.
(** a character class of the regular expressions of strptime, sdf.py:79, 81 *)
Definition in_range (lo hi c : Z) : bool := (lo <=? c) && (c <=? hi).
(** two characters in the given ranges, as a number *)
Definition two (l1 h1 l2 h2 : Z) (s : pystr) : list (Z * pystr) :=
  match s with a :: b :: r => if in_range l1 h1 a && in_range l2 h2 b then [((a - 48) * 10 + (b - 48), r)] else [] | _ => [] end.
(** one character of a class, as a number (strptime, sdf.py:79, 81) *)
Definition one (lo hi : Z) (s : pystr) : list (Z * pystr) :=
  match s with a :: r => if in_range lo hi a then [(a - 48, r)] else [] | _ => [] end.
(** a blank and a digit from 1 to 9 (the last alternative for the day in strptime, sdf.py:79, 81) *)
Definition blank_one (s : pystr) : list (Z * pystr) :=
  match s with 32 :: r => one 49 57 r | _ => [] end.
(** %d of strptime: 3[0-1], [1-2]\d, 0[1-9], [1-9], or a blank and [1-9] (sdf.py:79, 81) *)
Definition re_day s := two 51 51 48 49 s ++ two 49 50 48 57 s ++ two 48 48 49 57 s ++ one 49 57 s ++ blank_one s.
(** %m of strptime: 1[0-2], 0[1-9], [1-9] (sdf.py:79, 81) *)
Definition re_month s := two 49 49 48 50 s ++ two 48 48 49 57 s ++ one 49 57 s.
(** %Y of strptime: four digits (sdf.py:79, 81) *)
Definition re_year s := flat_map (fun '(h, r) => map (fun '(l, r') => (h * 100 + l, r')) (two 48 57 48 57 r)) (two 48 57 48 57 s).
(** %H of strptime: 2[0-3], [0-1]\d, \d (sdf.py:79, 81) *)
Definition re_hour s := two 50 50 48 51 s ++ two 48 49 48 57 s ++ one 48 57 s.
(** %M of strptime: [0-5]\d, \d (sdf.py:79, 81) *)
Definition re_minute s := two 48 53 48 57 s ++ one 48 57 s.
(** the whole pattern, alternatives in the order in which the matcher tries them (sdf.py:79, 81) *)
Definition re_date (s : pystr) : list (date * pystr) :=
  flat_map (fun '(d, s1) => flat_map (fun '(m, s2) => flat_map (fun '(y, s3) => flat_map (fun '(h, s4) =>
    map (fun '(mi, s5) => (mkDate y m d h mi, s5)) (re_minute s4)) (re_hour s3)) (re_year s2)) (re_month s1)) (re_day s).
(** a leap year of the Gregorian calendar (datetime, sdf.py:79, 81) *)
Definition leap (y : Z) : bool := (y mod 4 =? 0) && (negb (y mod 100 =? 0) || (y mod 400 =? 0)).
(** the number of days of a month (datetime, sdf.py:79, 81) *)
Definition days_in (y m : Z) : Z := if m =? 2 then (if leap y then 29 else 28) else if existsb (Z.eqb m) [4; 6; 9; 11] then 30 else 31.
(** the check of the datetime constructor (sdf.py:79, 81) *)
Definition exists_date (d : date) : bool := (1 <=? d_year d) && (d_day d <=? days_in (d_year d) (d_month d)).
(** datetime.strptime(value, ASCII_DATE_FORMAT), sdf.py:78-81: the match must use up the text and the date must exist *)
Definition strptime (s : pystr) : res date :=
  match re_date s with
  | [] => Err ValueError
  | (d, r) :: _ => match r with [] => if exists_date d then Ok d else Err ValueError | _ => Err ValueError end
  end.

(** str.replace(old, new) for a text old of three characters *)
Fixpoint replace3 (a b c : Z) (new s : pystr) : pystr :=
  match s with
  | x :: ((y :: z :: r) as t) => if (x =? a) && (y =? b) && (z =? c) then new ++ replace3 a b c new r else x :: replace3 a b c new t
  | x :: t => x :: replace3 a b c new t
  | [] => []
  end.

(** re.findall with the pattern of sdf.py:92: a tag < NAME >, anything on the same line, < / NAME >, with optional blanks.  The \b are implied by what stands around them.  \w: letters, digits and the underscore *)
Definition word_char (c : Z) : bool := in_range 48 57 c || in_range 65 90 c || in_range 97 122 c || (c =? 95).
(** \w+ of the pattern of sdf.py:93, ASCII text *)
Fixpoint take_word (s : pystr) : pystr * pystr :=
  match s with c :: r => if word_char c then let '(w, t) := take_word r in (c :: w, t) else ([], s) | [] => ([], []) end.
(** an optional blank of the pattern of sdf.py:93 *)
Definition opt_blank (s : pystr) : pystr := match s with 32 :: r => r | _ => s end.
(** the closing tag of the pattern of sdf.py:93 at the head of the text: its remainder *)
Definition closes (name s : pystr) : option pystr :=
  match s with
  | 60 :: r =>
    match opt_blank r with
    | 47 :: r1 => match after_prefix name (opt_blank r1) with
                  | Some r2 => match opt_blank r2 with 62 :: r3 => Some r3 | _ => None end
                  | None => None
                  end
    | _ => None
    end
  | _ => None
  end.
(** greedy: the last closing tag on the line *)
Fixpoint tag_body (name s : pystr) : option (pystr * pystr) :=
  match (match s with
         | c :: s' => if c =? 10 then None else match tag_body name s' with Some (b, r) => Some (c :: b, r) | None => None end
         | [] => None
         end) with
  | Some x => Some x
  | None => match closes name s with Some r => Some ([], r) | None => None end
  end.
(** the pattern of sdf.py:93 at the head of the text: name, contents, remainder *)
Definition tag_at (s : pystr) : option (pystr * pystr * pystr) :=
  match s with
  | 60 :: r =>
    match take_word (opt_blank r) with
    | (n :: name, r1) =>
      match opt_blank r1 with
      | 62 :: r2 => match tag_body (n :: name) r2 with Some (b, r3) => Some (n :: name, b, r3) | None => None end
      | _ => None
      end
    | _ => None
    end
  | _ => None
  end.
(** re.findall(pattern, data_section), sdf.py:94; [fuel] is the length of the text *)
Fixpoint findall (fuel : nat) (s : pystr) : list (pystr * pystr) :=
  match fuel with
  | O => []
  | S f =>
    match tag_at s with
    | Some (n, b, r) => (n, b) :: findall f r
    | None => match s with _ :: s' => findall f s' | [] => [] end
    end
  end.

(** a value of the metadata: header fields of sdf.py:73, dates of 79 and 81, texts of 94 *)
Inductive mvalue := MStr (s : pystr) | MInt (n : Z) | MFloat (x : f64) | MDate (d : date).
(** the dictionary header, later metadata, sdf.py:67-94 *)
Definition mdict := list (pystr * mvalue).
(** the types of ASCII_HEADER_TYPES, sdf.py:32-45 *)
Inductive htype := TStr | TInt | TFloat.
(** sdf.py:32-45 *)
Definition ascii_types : list (pystr * htype) :=
  [(str "ManufacID", TStr); (str "CreateDate", TStr); (str "ModDate", TStr); (str "NumPoints", TInt); (str "NumProfiles", TInt); (str "Xscale", TFloat);
   (str "Yscale", TFloat); (str "Zscale", TFloat); (str "Zresolution", TFloat); (str "Compression", TInt); (str "DataType", TInt); (str "CheckType", TInt)].

Section reader.
Variable to_float : pystr -> res f64.                        (* float(text) *)
Variable strtod : pystr -> option (f64 * pystr).             (* the number a text starts with, and the rest *)

(** np.fromstring(text, sep=' ', dtype='d'): numbers separated by white space; it stops (with a DeprecationWarning) where there is no number or no white space *)
Fixpoint fromstring (fuel : nat) (s : pystr) : list f64 :=
  match fuel with
  | O => []
  | S f =>
    match strtod (c_lstrip s) with
    | None => []
    | Some (v, r) => v :: (match r with c :: _ => if c_space c then fromstring f r else [] | [] => [] end)
    end
  end.
(** arr.reshape(ny, nx): one negative size is computed from the other *)
Definition reshape_np {A} (ny nx : Z) (l : list A) : res (list (list A)) :=
  let infer (known : Z) : res nat := if (known =? 0) || negb (zlen l mod known =? 0) then Err ValueError else Ok (Z.to_nat (zlen l / known)) in
  if (ny <? 0) && (nx <? 0) then Err ValueError
  else if ny <? 0 then rbind (infer nx) (fun n => reshape n (Z.to_nat nx) l)
  else if nx <? 0 then rbind (infer ny) (fun n => reshape (Z.to_nat ny) n l)
  else reshape (Z.to_nat ny) (Z.to_nat nx) l.

(** sdf.py:73 *)
Definition convert (t : htype) (s : pystr) : res mvalue :=
  match t with TStr => Ok (MStr s) | TInt => rmap MInt (py_int s) | TFloat => rmap MFloat (to_float s) end.
(** sdf.py:68-73 *)
Definition header_line (d : mdict) (line : pystr) : res mdict :=
  match split_on 61 line with
  | [name; value] =>
    match gget ascii_types (strip name) with
    | None => Err CorruptedFileError
    | Some t => rmap (gput d (strip name)) (convert t (strip value))
    end
  | _ => Err ValueError
  end.
(** the loop of sdf.py:68-73 *)
Fixpoint header_lines (d : mdict) (l : list pystr) : res mdict :=
  match l with [] => Ok d | x :: r => rbind (header_line d x) (fun d' => header_lines d' r) end.
(** header[...]; the types are those of [convert] *)
Definition item_int (d : mdict) (k : string) : res Z := match gget d (str k) with Some (MInt n) => Ok n | Some _ => Err TypeError | None => Err KeyError end.
(** header['Xscale'] etc., sdf.py:85-87 *)
Definition item_float (d : mdict) (k : string) : res f64 := match gget d (str k) with Some (MFloat x) => Ok x | Some _ => Err TypeError | None => Err KeyError end.
(** sdf.py:78-81 *)
Definition parse_date (d : mdict) (k : string) : res mdict :=
  match gget d (str k) with
  | Some (MStr s) => rmap (fun x => gput d (str k) (MDate x)) (strptime s)
  | Some _ => Err TypeError
  | None => Ok d
  end.
(** sdf.py:83-94 *)
Definition read_points (d : mdict) (data : pystr) : res (raw * mdict) :=
  let text := replace3 66 65 68 (str "NAN") data in
  rbind (item_int d "NumProfiles") (fun ny =>
  rbind (item_int d "NumPoints") (fun nx =>
  rbind (reshape_np ny nx (fromstring (S (length text)) text)) (fun g =>
  rbind (item_float d "Zscale") (fun zs =>
  let f := fmul (pow10 6) zs in
  rbind (item_float d "Xscale") (fun xs =>
  rbind (item_float d "Yscale") (fun ys =>
  Ok ({| rdata := map (map (fun x => fmul x f)) g; rstep_x := fmul xs (pow10 6); rstep_y := fmul ys (pow10 6) |},
      fold_left (fun m '(k, v) => gput m k (MStr (strip v))) (findall (S (length text)) text) d))))))).
(** sdf.py:61-96, the handle standing after the magic *)
Definition read_ascii (h : fh) : res (raw * mdict) :=
  let '(b, _) := fread_all h in
  if negb (forallb (fun c => (0 <=? c) && (c <? 128)) b) then Err UnicodeError else
  match split_on 42 (lstrip b) with
  | [header; data; _; e] =>
    if negb (zs_eqb (strip e) []) then Err ValueError else
    rbind (header_lines [] (splitlines_aux (lstrip header))) (fun d =>
    rbind (item_int d "DataType") (fun dt =>
    match sdf_item dt with
    | None => Err CorruptedFileError
    | Some _ => rbind (parse_date d "CreateDate") (fun d1 => rbind (parse_date d1 "ModDate") (fun d2 => read_points d2 data))
    end))
  | _ => Err ValueError
  end.
(** sdf.py:128-136 for ASCII files *)
Definition load_ascii (b : bytes) : res (raw * mdict) :=
  let '(m, h1) := fread 8 (open_rb b) in
  if zs_eqb m sdf_magic_ascii then read_ascii h1 else Err CorruptedFileError.
End reader.
