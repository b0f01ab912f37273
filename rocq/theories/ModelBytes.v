(** Bytes, Python strings, UTF-8, the struct module and the declarative binary layouts of
    surfalize/file/common.py.  Python floats are IEEE binary64 (Flocq); struct format 'f' is binary32. *)
From Coq Require Import String Ascii ZArith Lia Bool.
From Coq Require Import List.
From Flocq Require Core.FLX Core.Zaux.
From Flocq Require Import IEEE754.BinarySingleNaN IEEE754.Binary IEEE754.Bits.
From Verif Require Import Base.
Import ListNotations.
Local Open Scope Z_scope.

(** A byte is an integer 0..255; a Python str is its list of code points. *)
Definition bytes := list Z.
(** a Python str as its code points (arguments of file/common.py:144-171) *)
Definition pystr := list Z.
(** a literal of the source (ASCII only) as a Python str *)
Definition str (s : string) : pystr := map (fun c => Z.of_nat (nat_of_ascii c)) (list_ascii_of_string s).
(** len(...) *)
Definition zlen {A} (l : list A) : Z := Z.of_nat (length l).

(** == of two byte strings or of two strs, e.g. the magic test of common.py:481-491 *)
Fixpoint zs_eqb (a b : list Z) : bool :=
  match a, b with
  | [], [] => true
  | x :: a, y :: b => (x =? y) && zs_eqb a b
  | _, _ => false
  end.

(** *** Floats *)
Definition f64 := binary64.
(** np.float32, the struct format 'f' (common.py:241-276) *)
Definition f32 := binary32.
Lemma Hp32 : FLX.Prec_gt_0 24. Proof. reflexivity. Qed.
Lemma He32 : Prec_lt_emax 24 128. Proof. reflexivity. Qed.
Lemma Hp64 : FLX.Prec_gt_0 53. Proof. reflexivity. Qed.
Lemma He64 : Prec_lt_emax 53 1024. Proof. reflexivity. Qed.
(** the value of m * 2^e rounded to nearest even *)
Definition f64_make (m e : Z) : f64 := binary_normalize 53 1024 Hp64 He64 mode_NE m e false.
(** a single from mantissa and exponent (literals of the examples) *)
Definition f32_make (m e : Z) : f32 := binary_normalize 24 128 Hp32 He32 mode_NE m e false.
(** int -> float (exact for |z| <= 2^53) *)
Definition f64_of_Z (z : Z) : f64 := f64_make z 0.
(** np.nan as a double *)
Definition nan64 : f64 := proj1_sig default_nan_pl64.
(** np.nan as a single *)
Definition nan32 : f32 := proj1_sig default_nan_pl32.
(** double -> single, rounding to nearest even (C cast; NaN payloads are not tracked) *)
Definition f32_of_f64 (x : f64) : f32 :=
  match x with
  | Binary.B754_zero _ _ s => Binary.B754_zero 24 128 s
  | Binary.B754_infinity _ _ s => Binary.B754_infinity 24 128 s
  | Binary.B754_nan _ _ _ _ _ => nan32
  | Binary.B754_finite _ _ s m e _ => f32_make (Zaux.cond_Zopp s (Zpos m)) e
  end.
(** single -> double (exact) *)
Definition f64_of_f32 (x : f32) : f64 :=
  match x with
  | Binary.B754_zero _ _ s => Binary.B754_zero 53 1024 s
  | Binary.B754_infinity _ _ s => Binary.B754_infinity 53 1024 s
  | Binary.B754_nan _ _ _ _ _ => nan64
  | Binary.B754_finite _ _ s m e _ => f64_make (Zaux.cond_Zopp s (Zpos m)) e
  end.

(** *** Little-endian integers *)
Fixpoint le (n : nat) (v : Z) : bytes :=
  match n with O => [] | S n' => v mod 256 :: le n' (v / 256) end.
(** int.from_bytes(b, 'little'); struct.unpack of the integer formats (common.py:262-276) *)
Fixpoint unle (l : bytes) : Z := match l with [] => 0 | b :: l' => b + 256 * unle l' end.
(** the signed struct formats: two's complement (common.py:262-276) *)
Definition to_signed (n : nat) (v : Z) : Z :=
  if v <? 2 ^ (8 * Z.of_nat n - 1) then v else v - 2 ^ (8 * Z.of_nat n).

(** *** UTF-8 (strict, as CPython) *)
Definition is_surrogate (c : Z) : bool := (55296 <=? c) && (c <=? 57343).
(** one code point in UTF-8; surrogates and values above 0x10FFFF raise (common.py:247-260: value.encode) *)
Definition utf8_char (c : Z) : res bytes :=
  if (c <? 0) || (1114111 <? c) || is_surrogate c then Err UnicodeError
  else if c <? 128 then Ok [c]
  else if c <? 2048 then Ok [192 + c / 64; 128 + c mod 64]
  else if c <? 65536 then Ok [224 + c / 4096; 128 + (c / 64) mod 64; 128 + c mod 64]
  else Ok [240 + c / 262144; 128 + (c / 4096) mod 64; 128 + (c / 64) mod 64; 128 + c mod 64].
(** str.encode('utf-8'), common.py:247-260 *)
Fixpoint utf8_encode (s : pystr) : res bytes :=
  match s with
  | [] => Ok []
  | c :: s' => rbind (utf8_char c) (fun b => rmap (app b) (utf8_encode s'))
  end.
(** a continuation byte of UTF-8 (common.py:144-171) *)
Definition is_cont (b : Z) : bool := (128 <=? b) && (b <? 192).
(** bytes.decode('utf-8'), common.py:144-171: overlong forms, surrogates and truncated sequences raise UnicodeDecodeError *)
Fixpoint utf8_decode (l : bytes) {struct l} : res pystr :=
  match l with
  | [] => Ok []
  | b0 :: l1 =>
    if b0 <? 128 then rmap (cons b0) (utf8_decode l1)
    else if b0 <? 192 then Err UnicodeError
    else
      match l1 with
      | [] => Err UnicodeError
      | b1 :: l2 =>
        if negb (is_cont b1) then Err UnicodeError
        else if b0 <? 224 then
          let c := (b0 - 192) * 64 + (b1 - 128) in
          if 128 <=? c then rmap (cons c) (utf8_decode l2) else Err UnicodeError
        else
          match l2 with
          | [] => Err UnicodeError
          | b2 :: l3 =>
            if negb (is_cont b2) then Err UnicodeError
            else if b0 <? 240 then
              let c := (b0 - 224) * 4096 + (b1 - 128) * 64 + (b2 - 128) in
              if (2048 <=? c) && negb (is_surrogate c) then rmap (cons c) (utf8_decode l3) else Err UnicodeError
            else
              match l3 with
              | [] => Err UnicodeError
              | b3 :: l4 =>
                if negb (is_cont b3) then Err UnicodeError
                else
                  let c := (b0 - 240) * 262144 + (b1 - 128) * 4096 + (b2 - 128) * 64 + (b3 - 128) in
                  if (65536 <=? c) && (c <=? 1114111) then rmap (cons c) (utf8_decode l4) else Err UnicodeError
              end
          end
      end
  end.

(** the encodings a caller passes: 'utf-8', 'latin1', and the pseudo encoding 'auto' (readers only) *)
Inductive encoding := Utf8 | Latin1 | Auto.
(** str.encode(encoding); 'auto' is not a codec name (LookupError) *)
Definition encode (e : encoding) (s : pystr) : res bytes :=
  match e with
  | Utf8 => utf8_encode s
  | Latin1 => if forallb (fun c => (0 <=? c) && (c <? 256)) s then Ok s else Err UnicodeError
  | Auto => Err (OtherError "LookupError")
  end.
(** surfalize/file/common.py:144-170 (decode).  latin1 accepts every byte string, so the chardet branch is
    unreachable. *)
Definition decode (e : encoding) (b : bytes) : res pystr :=
  match e with
  | Utf8 => utf8_decode b
  | Latin1 => Ok b
  | Auto => match utf8_decode b with Ok s => Ok s | Err _ => Ok b end
  end.

(** *** str.ljust, str.rstrip *)
Definition ljust (n : nat) (s : pystr) : pystr := s ++ repeat 32 (n - length s).
(** the characters Entry.read strips from the right, common.py:262-276 *)
Definition blank0 (c : Z) : bool := (c =? 32) || (c =? 0).
(** str.rstrip over the characters satisfying [p] *)
Fixpoint rstrip (p : Z -> bool) (s : pystr) : pystr :=
  match s with
  | [] => []
  | c :: s' => match rstrip p s' with [] => if p c then [] else [c] | t => c :: t end
  end.

(** *** struct formats: 'b' 'h' 'i' (signed), 'B' 'H' 'I' (unsigned), 'f', 'd', '?', '<n>s'.
    Native byte order = little endian, standard sizes (x86-64); every field is packed separately, so there is
    no alignment padding. *)
Inductive fmt := FInt (signed : bool) (size : nat) | FF32 | FF64 | FBool | FStr (n : nat).
(** struct format 'h' *)
Definition fmt_h := FInt true 2.
(** struct format 'i' *)
Definition fmt_i := FInt true 4.
(** struct format 'B' *)
Definition fmt_B := FInt false 1.
(** struct format 'H' *)
Definition fmt_H := FInt false 2.
(** struct format 'I' *)
Definition fmt_I := FInt false 4.
(** struct.calcsize *)
Definition calcsize (f : fmt) : nat :=
  match f with FInt _ n => n | FF32 => 4%nat | FF64 => 8%nat | FBool => 1%nat | FStr n => n end.

(** Python values that occur in headers *)
Inductive pyval := VInt (z : Z) | VFloat (x : f64) | VBool (b : bool) | VStr (s : pystr) | VBytes (b : bytes).

(** the values struct accepts for an integer format (objects with __index__), common.py:247-260 *)
Definition int_of_val (v : pyval) : option Z :=
  match v with VInt z => Some z | VBool b => Some (Z.b2z b) | _ => None end.
(** the range check of struct.pack for the integer formats, common.py:247-260 *)
Definition in_range (signed : bool) (n : nat) (z : Z) : bool :=
  if signed then (- 2 ^ (8 * Z.of_nat n - 1) <=? z) && (z <? 2 ^ (8 * Z.of_nat n - 1))
  else (0 <=? z) && (z <? 2 ^ (8 * Z.of_nat n)).
(** float(v) for numbers; an int whose double would be infinite raises OverflowError *)
Definition float_of_val (v : pyval) : res f64 :=
  match v with
  | VFloat x => Ok x
  | VInt z => let x := f64_of_Z z in if Binary.is_finite 53 1024 x then Ok x else Err OverflowError
  | VBool b => Ok (f64_of_Z (Z.b2z b))
  | _ => Err StructError
  end.
(** bool(v), for the struct format '?' (common.py:247-260) *)
Definition truth (v : pyval) : bool :=
  match v with
  | VInt z => negb (z =? 0)
  | VFloat x => match x with Binary.B754_zero _ _ _ => false | _ => true end
  | VBool b => b
  | VStr s => negb (zs_eqb s [])
  | VBytes s => negb (zs_eqb s [])
  end.

(** struct.pack(format, value): integers out of range and values of the wrong kind raise struct.error, a double
    beyond the single range raises OverflowError, byte strings are cut or NUL padded to the field *)
Definition pack (f : fmt) (v : pyval) : res bytes :=
  match f with
  | FInt s n =>
    match int_of_val v with
    | Some z => if in_range s n z then Ok (le n (z mod 2 ^ (8 * Z.of_nat n))) else Err StructError
    | None => Err StructError
    end
  | FF32 =>
    rbind (float_of_val v) (fun x =>
      let y := f32_of_f64 x in
      if Binary.is_finite 53 1024 x && negb (Binary.is_finite 24 128 y) then Err OverflowError
      else Ok (le 4 (bits_of_b32 y)))
  | FF64 => rbind (float_of_val v) (fun x => Ok (le 8 (bits_of_b64 x)))
  | FBool => Ok [Z.b2z (truth v)]
  | FStr n =>
    match v with
    | VBytes b => Ok (firstn n b ++ repeat 0 (n - length b))
    | _ => Err StructError
    end
  end.
(** struct.unpack(format, buffer)[0]: the buffer must have exactly the size of the format *)
Definition unpack (f : fmt) (b : bytes) : res pyval :=
  if Nat.eqb (length b) (calcsize f) then
    match f with
    | FInt s n => Ok (VInt (if s then to_signed n (unle b) else unle b))
    | FF32 => Ok (VFloat (f64_of_f32 (b32_of_bits (unle b))))
    | FF64 => Ok (VFloat (b64_of_bits (unle b)))
    | FBool => Ok (VBool (negb (unle b =? 0)))
    | FStr _ => Ok (VBytes b)
    end
  else Err StructError.

(** *** Files opened for reading: contents and position *)
Record fh := { contents : bytes; pos : nat }.
(** f.read(n): at most n bytes; at or past the end nothing *)
Definition fread (n : nat) (f : fh) : bytes * fh :=
  let b := firstn n (skipn (pos f) (contents f)) in (b, {| contents := contents f; pos := pos f + length b |}).
(** f.seek(n, 1): may go past the end *)
Definition fskip (n : nat) (f : fh) : fh := {| contents := contents f; pos := pos f + n |}.
(** f.read() *)
Definition fread_all (f : fh) : bytes * fh :=
  let b := skipn (pos f) (contents f) in (b, {| contents := contents f; pos := pos f + length b |}).

(** *** Layouts (surfalize/file/common.py:187-336, FormatFromPrevious, Apply, Reserved, Entry, Layout) *)
Definition dict := list (string * pyval).
(** d.get(k) of the header dictionary, common.py:278-336 *)
Fixpoint dget (d : dict) (k : string) : option pyval :=
  match d with [] => None | (k', v) :: d' => if String.eqb k k' then Some v else dget d' k end.
(** d[k] = v of the header dictionary, common.py:278-336 *)
Fixpoint dset (d : dict) (k : string) (v : pyval) : dict :=
  match d with
  | [] => [(k, v)]
  | (k', v') :: d' => if String.eqb k k' then (k, v) :: d' else (k', v') :: dset d' k v
  end.
(** d[k] of the header dictionary, KeyError if absent (common.py:247-260) *)
Definition dkey (d : dict) (k : string) : res pyval :=
  match dget d k with Some v => Ok v | None => Err KeyError end.

(** the format of an Entry: a struct format, FormatFromPrevious (common.py:187-195) or a subclass of Apply (197-217) *)
Inductive eformat :=
| Fixed (f : fmt)                                        (* a struct format string *)
| FromPrev (previous : string)                           (* FormatFromPrevious(previous, 's') *)
| Convert (f : fmt) (rd wr : pyval -> res pyval).        (* Apply(dtype) with its read and write methods *)
Inductive entry := Reserved (n : nat) | Entry (name : string) (f : eformat).

(** FormatFromPrevious.get_format, common.py:193-195: f'{size}s' (a negative size is no valid format) *)
Definition get_format (d : dict) (prev : string) : res fmt :=
  rbind (dkey d prev) (fun v =>
    match v with
    | VInt z => if z <? 0 then Err StructError else Ok (FStr (Z.to_nat z))
    | _ => Err StructError
    end).

(** Entry.write / Reserved.write, common.py:237-260 (Apply.convert_to_file: 215-217) *)
Definition write_entry (en : encoding) (d : dict) (e : entry) : res bytes :=
  match e with
  | Reserved n => Ok (repeat 0 n)
  | Entry name (Convert f _ wr) => rbind (dkey d name) (fun v => rbind (wr v) (pack f))
  | Entry name ef =>
    rbind (match ef with FromPrev p => get_format d p | Fixed f => Ok f | Convert f _ _ => Ok f end) (fun f =>
    rbind (dkey d name) (fun v =>
    rbind (match v with VStr s => rmap VBytes (encode en (ljust (calcsize f) s)) | _ => Ok v end) (fun v' =>
    pack f v')))
  end.
(** Layout.write, common.py:283-300 *)
Fixpoint write_layout (en : encoding) (d : dict) (l : list entry) : res bytes :=
  match l with
  | [] => Ok []
  | e :: l' => rbind (write_entry en d e) (fun b => rmap (app b) (write_layout en d l'))
  end.

(** Entry.read / Reserved.read, common.py:234-235, 262-276 (Apply.convert_from_file: 210-213): f.read(calcsize), unpack, and for strings decode and
    rstrip(' \x00') *)
Definition read_value (en : encoding) (f : fmt) (h : fh) : res (pyval * fh) :=
  let '(b, h') := fread (calcsize f) h in
  rbind (unpack f b) (fun v =>
    match v with
    | VBytes raw => rmap (fun s => (VStr (rstrip blank0 s), h')) (decode en raw)
    | _ => Ok (v, h')
    end).
(** Entry.read and Reserved.read, common.py:234-235, 262-276: the value is stored under the name of the entry *)
Definition read_entry (en : encoding) (e : entry) (d : dict) (h : fh) : res (dict * fh) :=
  match e with
  | Reserved n => Ok (d, fskip n h)
  | Entry name (Convert f rd _) =>
    let '(b, h') := fread (calcsize f) h in
    rbind (unpack f b) (fun v => rmap (fun v' => (dset d name v', h')) (rd v))
  | Entry name ef =>
    rbind (match ef with FromPrev p => get_format d p | Fixed f => Ok f | Convert f _ _ => Ok f end) (fun f =>
    rmap (fun '(v, h') => (dset d name v, h')) (read_value en f h))
  end.
(** Layout.read, common.py:302-336 *)
Fixpoint read_layout_from (en : encoding) (l : list entry) (d : dict) (h : fh) : res (dict * fh) :=
  match l with
  | [] => Ok (d, h)
  | e :: l' => rbind (read_entry en e d h) (fun '(d', h') => read_layout_from en l' d' h')
  end.
(** Layout.read, common.py:302-336, beginning with an empty dictionary *)
Definition read_layout (en : encoding) (l : list entry) (h : fh) : res (dict * fh) := read_layout_from en l [] h.

(** numpy arrays of fixed-width elements.  read_array / np.frombuffer (common.py:338-365): the buffer length must
    be a multiple of the item size.  [chunks n b] splits into items. *)
Fixpoint chunks (k n : nat) (b : bytes) : list bytes :=
  match k with O => [] | S k' => firstn n b :: chunks k' n (skipn n b) end.
(** np.frombuffer of elements of n bytes (common.py:338-365): the buffer length must be a multiple of n *)
Definition frombuffer (n : nat) (b : bytes) : res (list bytes) :=
  if Nat.eqb (Nat.modulo (length b) n) 0 then Ok (chunks (Nat.div (length b) n) n b) else Err ValueError.
(** ndarray.reshape(rows, cols) of a flat array *)
Fixpoint rows_of {A} (rows cols : nat) (l : list A) : list (list A) :=
  match rows with O => [] | S r => firstn cols l :: rows_of r cols (skipn cols l) end.
(** ndarray.reshape(rows, cols), e.g. sur.py:305-324; ValueError if the sizes do not match *)
Definition reshape {A} (rows cols : nat) (l : list A) : res (list (list A)) :=
  if Nat.eqb (length l) (rows * cols) then Ok (rows_of rows cols l) else Err ValueError.
(** ndarray.tobytes / tofile of an int32 / float32 / float64 array *)
Definition int_tobytes (n : nat) (l : list Z) : bytes := concat (map (fun z => le n (z mod 2 ^ (8 * Z.of_nat n))) l).
(** ndarray.tobytes of a float64 array (common.py:367-371) *)
Definition f64_tobytes (l : list f64) : bytes := concat (map (fun x => le 8 (bits_of_b64 x)) l).
(** ndarray.tobytes of a float32 array (common.py:367-371) *)
Definition f32_tobytes (l : list f32) : bytes := concat (map (fun x => le 4 (bits_of_b32 x)) l).
