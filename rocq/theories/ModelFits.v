(** FITS (surfalize/file/fits.py) and xyz (surfalize/file/xyz.py) files.  Scaling of the FITS heights to micrometres
    (fits.py:113-119) is not modelled; int() is modelled for optionally signed digit strings, float() is a parameter. *)
From Coq Require Import String ZArith Bool Reals.
From Coq Require Import List.
From Flocq Require Import IEEE754.BinarySingleNaN IEEE754.Binary IEEE754.Bits.
From Verif Require Import Base RList ModelBytes ModelUnits ModelSur ModelFormats.
Import ListNotations.
Local Open Scope Z_scope.
Local Open Scope list_scope.

(** fits.py:6 *)
Definition BLOCKSIZE : nat := 2880.
(** raised at fits.py:56-63, 73-102 *)
Definition file_format_error : exn := OtherError "FileFormatError".
(** a header value: convert_dtype of fits.py:23-33 *)
Inductive hval := HInt (z : Z) | HFloat (x : f64) | HStr (s : pystr).
(** the dictionary of one header, fits.py:35-63 *)
Definition header := list (pystr * hval).
(** d[k] of a dict, fits.py:73-127 *)
Fixpoint hget (k : pystr) (d : header) : option hval :=
  match d with [] => None | (k', v) :: d' => if zs_eqb k k' then Some v else hget k d' end.
(** d[k] = v of a dict, fits.py:35-54 *)
Fixpoint hset (k : pystr) (v : hval) (d : header) : header :=
  match d with [] => [(k, v)] | (k', v') :: d' => if zs_eqb k k' then (k', v) :: d' else (k', v') :: hset k v d' end.
(** header.update(...), fits.py:56-63 *)
Definition hupdate (d d' : header) : header := fold_left (fun d kv => hset (fst kv) (snd kv) d) d' d.

(** str.strip(), fits.py:35-54 *)
Definition strip (s : pystr) : pystr := rstrip is_space (lstrip s).
(** str.startswith, fits.py:35-54 *)
Fixpoint startsb (p s : pystr) : bool :=
  match p, s with [], _ => true | x :: p', y :: s' => (x =? y) && startsb p' s' | _ :: _, [] => false end.
(** str.replace(old, '') for a non-empty [old]; [fuel] bounds the number of characters *)
Fixpoint remove_all (fuel : nat) (old s : pystr) : pystr :=
  match fuel with
  | O => s
  | S n => match s with
           | [] => []
           | c :: s' => if startsb old s then remove_all n old (skipn (length old) s) else c :: remove_all n old s'
           end
  end.
(** int(text) *)
Definition int_text (s : pystr) : res Z :=
  match s with
  | 45 :: s' => rmap Z.opp (int_parse s')
  | 43 :: s' => int_parse s'
  | _ => int_parse s
  end.

Section Fits.
Variable float_of : pystr -> res f64.                    (* float(text) *)
(** str.strip("' ") *)
Definition is_quote (c : Z) : bool := (c =? 39) || (c =? 32).
(** removing leading characters (half of str.strip("' "), fits.py:23-33) *)
Fixpoint lstrip_by (p : Z -> bool) (s : pystr) : pystr := match s with [] => [] | c :: s' => if p c then lstrip_by p s' else s end.
(** fits.py:23-32 *)
Definition convert_dtype (s : pystr) : hval :=
  match int_text s with
  | Ok z => HInt z
  | Err _ => match float_of s with Ok x => HFloat x | Err _ => HStr (rstrip is_quote (lstrip_by is_quote s)) end
  end.

(** fits.py:35: 36 lines of 80 characters *)
Definition cards (block : pystr) : list pystr := map (fun i => rstrip is_space (firstn 80 (skipn (i * 80) block))) (seq 0 36).
(** fits.py:38-53 *)
Fixpoint parse_cards (l : list pystr) (d : header) : res (header * bool) :=
  match l with
  | [] => Ok (d, false)
  | line :: l' =>
    if zs_eqb line [] || startsb (str "COMMENT") line then parse_cards l' d
    else if zs_eqb line (str "END") then Ok (d, true)
    else
      let line := hd [] (split_on 47 line) in               (* text before the first slash, if any *)
      match split_on 61 line with
      | [lhs; rhs] =>
        let lhs := strip lhs in let rhs := strip rhs in
        let lhs := if startsb (str "HIERARCH") lhs then remove_all (length lhs) (str "HIERARCH ") lhs else lhs in
        parse_cards l' (hset lhs (convert_dtype rhs) d)
      | _ => Err ValueError
      end
  end.
(** fits.py:35-53 *)
Definition parse_header_block (block : pystr) : res (header * bool) := parse_cards (cards block) [].
(** one iteration of the loop of fits.py:60-63: the header so far, END seen *)
Definition header_step (en : encoding) (d : header) (h : fh) : res (header * bool) * fh :=
  let '(b, h') := fread BLOCKSIZE h in
  (rbind (decode en b) (fun s => rmap (fun '(p, ended) => (hupdate d p, ended)) (parse_header_block s)), h').
(** fits.py:56-63; [None]: still running after [fuel] iterations *)
Fixpoint read_header (fuel : nat) (en : encoding) (d : header) (h : fh) : option (res header * fh) :=
  match fuel with
  | O => None
  | S n => match header_step en d h with
           | (Ok (d', true), h') => Some (Ok d', h')
           | (Ok (d', false), h') => read_header n en d' h'
           | (Err e, h') => Some (Err e, h')
           end
  end.

(** fits.py:14-21: element size and value of an item; all types are big endian *)
Definition bitpix_size (b : Z) : option nat :=
  if b =? 8 then Some 1%nat else if b =? 16 then Some 2%nat else if b =? 32 then Some 4%nat else if b =? 64 then Some 8%nat
  else if b =? -32 then Some 4%nat else if b =? -64 then Some 8%nat else None.
(** fits.py:14-21: one item of the array as a double *)
Definition item_value (bitpix : Z) (item : bytes) : f64 :=
  let v := unle (rev item) in
  if bitpix =? 8 then f64_of_Z v
  else if bitpix =? -32 then f64_of_f32 (b32_of_bits v)
  else if bitpix =? -64 then b64_of_bits v
  else f64_of_Z (to_signed (length item) v).
(** fits.py:8-21 (HeaderDataUnit): header and data *)
Record hdu := { h_header : header; h_bitpix : Z; h_items : list (list bytes) }.
(** header[k] used as an integer, fits.py:73-102 *)
Definition hint_of (d : header) (k : pystr) : res Z :=
  match hget k d with None => Err KeyError | Some (HInt z) => Ok z | Some _ => Err TypeError end.
(** layers[EXTNAME] = ...; a non-string EXTNAME is a different key than every name looked up below *)
Definition layers := list (hval * hdu).
(** == of two dictionary keys, fits.py:82-102 *)
Definition hval_eqb (a b : hval) : bool :=
  match a, b with HStr s, HStr t => zs_eqb s t | HInt x, HInt y => x =? y | _, _ => false end.
(** layers[k] = v, fits.py:82-102 *)
Fixpoint lset (k : hval) (v : hdu) (l : layers) : layers :=
  match l with [] => [(k, v)] | (k', v') :: l' => if hval_eqb k k' then (k', v) :: l' else (k', v') :: lset k v l' end.
(** layers[k], fits.py:104-127 *)
Fixpoint lget (k : hval) (l : layers) : option hdu :=
  match l with [] => None | (k', v) :: l' => if hval_eqb k k' then Some v else lget k l' end.

(** fits.py:85-99, the extension that starts with [block]; negative axes (reshape(-1)) and NAXIS = 2.0 are not modelled: TypeError *)
Definition read_extension (en : encoding) (block : bytes) (ls : layers) (h : fh) : res (layers * fh) :=
  rbind (decode en block) (fun s =>
  rbind (parse_header_block s) (fun '(d, _) =>
  match hget (str "NAXIS") d with
  | None => Err KeyError
  | Some v =>
    if negb (hval_eqb v (HInt 2)) then Err UnsupportedFileFormatError else
    rbind (hint_of d (str "NAXIS1")) (fun n1 =>
    rbind (hint_of d (str "NAXIS2")) (fun n2 =>
    rbind (hint_of d (str "BITPIX")) (fun bitpix =>
    match bitpix_size bitpix with
    | None => Err KeyError
    | Some size =>
      if (n1 <? 0) || (n2 <? 0) then Err TypeError else
      let count := (Z.to_nat n1 * Z.to_nat n2)%nat in
      let datasize := (count * size)%nat in
      let '(b, h1) := fread (count * size) h in
      rbind (frombuffer size b) (fun items =>
      rbind (reshape (Z.to_nat n2) (Z.to_nat n1) items) (fun data =>
      let h2 := fskip (BLOCKSIZE - Nat.modulo datasize BLOCKSIZE) h1 in
      match hget (str "EXTNAME") d with
      | None => Err KeyError
      | Some name => Ok (lset name {| h_header := d; h_bitpix := bitpix; h_items := data |} ls, h2)
      end))
    end)))
  end)).
(** one iteration of fits.py:82-102 *)
Definition hdu_step (en : encoding) (ls : layers) (h : fh) : res (layers * fh) :=
  let '(block, h1) := fread BLOCKSIZE h in
  if startsb (str "XTENSION") block then read_extension en block ls h1 else Ok (ls, h1).
(** the loop of fits.py:82-102; [fuel] bounds the number of headers and is never used up *)
Fixpoint read_hdus (fuel : nat) (en : encoding) (ls : layers) (h : fh) : option (res layers) :=
  match fuel with
  | O => None
  | S n => match hdu_step en ls h with
           | Err e => Some (Err e)
           | Ok (ls', h') => if Nat.leb (length (contents h')) (pos h') then Some (Ok ls') else read_hdus n en ls' h'
           end
  end.
(** fits.py:104-112, 121-123: unscaled heights, NaN where the mask is 0 *)
Definition heights (ls : layers) : res (list (list f64)) :=
  match lget (HStr (str "HEIGHTS")) ls with
  | None => Err file_format_error
  | Some hh =>
    let data := map (map (item_value (h_bitpix hh))) (h_items hh) in
    match lget (HStr (str "MASK")) ls with
    | None => Ok data
    | Some mk =>
      let mask := map (map (item_value (h_bitpix mk))) (h_items mk) in
      if Nat.eqb (length mask) (length data) && Nat.eqb (length (hd [] mask)) (length (hd [] data))
      then Ok (map (fun '(r, m) => map (fun '(x, k) => if truth (VFloat k) then x else nan64) (combine r m)) (combine data mask))
      else Err IndexError                                       (* boolean index did not match *)
    end
  end.
(** fits.py:72-123 *)
Definition read_fits (fuel : nat) (en : encoding) (file : bytes) : option (res (list (list f64))) :=
  if negb (zs_eqb (firstn 6 file) (str "SIMPLE")) then Some (Err file_format_error)
  else match read_header fuel en [] {| contents := file; pos := 0 |} with
       | None => None
       | Some (Err e, _) => Some (Err e)
       | Some (Ok _, h) => option_map (fun r => rbind r heights) (read_hdus fuel en [] h)
       end.
End Fits.

(** ** xyz.py:7-25.  [rows]: the numbers of the text file as parsed by np.loadtxt, one list per line.  np.loadtxt refuses
    lines of different length (ValueError) and returns a 1d array for a single line or column, for which raw_data[:, 0]
    raises IndexError. *)
Fixpoint dedup (l : list R) : list R :=
  match l with
  | [] => []
  | x :: l' => match l' with [] => [x] | y :: _ => if Req_EM_T x y then dedup l' else x :: dedup l' end
  end.
(** np.unique: sorted, without duplicates *)
Definition unique (l : list R) : list R := dedup (sortR l).
(** data[:, j], xyz.py:8-25 *)
Definition column_of (j : nat) (rows : list (list R)) : list R := map (fun r => nth j r 0%R) rows.
(** max - min of a column, xyz.py:8-25 *)
Definition spread (l : list R) : R := match lmin l, lmax l with Some a, Some b => (b - a)%R | _, _ => 0%R end.
(** the heights and the two steps *)
Definition read_xyz (rows : list (list R)) : res (list (list R) * R * R) :=
  let ncol := length (hd [] rows) in
  if negb (forallb (fun r => Nat.eqb (length r) ncol) rows) then Err UnsupportedFileFormatError
  else if Nat.leb (length rows) 1 || Nat.leb ncol 1 then Err IndexError
  else
    let x := unique (column_of 0 rows) in
    let y := unique (column_of 1 rows) in
    let nx := length x in let ny := length y in
    if negb (Nat.eqb (nx * ny) (length rows)) then Err CorruptedFileError
    else if Nat.leb ncol 2 then Err IndexError
    else
      rmap (fun data => (data, (spread x / INR nx * 10 ^ 6)%R, (spread y / INR ny * 10 ^ 6)%R))
           (reshape ny nx (map (fun z => (z * 10 ^ 6)%R) (column_of 2 rows))).
