(** Wyko OPD files: surfalize/file/opd.py.  dateutil.parser.parse is a parameter.  The file is one opened from disk: read(-1) reads
    the rest, other negative lengths and negative positions raise ValueError. *)
From Coq Require Import String Ascii ZArith Lia Bool.
From Coq Require Import List.
From Flocq Require Import IEEE754.BinarySingleNaN IEEE754.Binary IEEE754.Bits.
From Verif Require Import Base ModelBytes ModelSur ModelFormats ModelReaders.
Import ListNotations.
Local Open Scope Z_scope.

(** opd.py:10 (MAGIC) *)
Definition opd_magic : bytes := [1; 0] ++ str "Directory".
(** opd.py:20-28 (BlockType): the accepted type numbers *)
Definition block_types : list Z := [0; 1; 3; 5; 6; 7; 8; 12].
(** opd.py:42-47 (Block) without the flags: type, size; with the offset once it is known *)
Definition block := (Z * Z)%type.
(** opd.py:79-82 (read_block_definition) *)
Definition read_block (en : encoding) (h : fh) : res (pystr * block * fh) :=
  let '(nb, h1) := fread 16 h in
  rbind (decode en nb) (fun name =>
  let '(d, h2) := fread 8 h1 in
  if negb (Nat.eqb (length d) 8) then Err StructError else
  let t := item_i 2 (firstn 2 d) in
  if negb (existsb (Z.eqb t) block_types) then Err ValueError else
  Ok (rstrip isnul name, (t, item_i 4 (firstn 4 (skipn 2 d))), h2)).
(** blocks[name] = block: a second block of the same name replaces the first, in its place *)
Fixpoint bput (l : list (pystr * block)) (k : pystr) (v : block) : list (pystr * block) :=
  match l with [] => [(k, v)] | (k', v') :: l' => if zs_eqb k k' then (k, v) :: l' else (k', v') :: bput l' k v end.
(** blocks[name], opd.py:86-144 *)
Fixpoint bget {A} (l : list (pystr * A)) (k : pystr) : option A :=
  match l with [] => None | (k', v) :: l' => if zs_eqb k k' then Some v else bget l' k end.
(** opd.py:97-100 *)
Fixpoint read_blocks (en : encoding) (n : nat) (acc : list (pystr * block)) (h : fh) : res (list (pystr * block) * fh) :=
  match n with
  | O => Ok (acc, h)
  | S n' => rbind (read_block en h) (fun '(name, bl, h1) => read_blocks en n' (bput acc name bl) h1)
  end.
(** opd.py:101-104: offsets are the running sums of the sizes *)
Fixpoint place (off : Z) (l : list (pystr * block)) : list (pystr * (Z * Z * Z)) :=
  match l with [] => [] | (k, (t, s)) :: l' => (k, (t, s, off)) :: place (off + s) l' end.
(** filehandle.seek(offset, 0) *)
Definition seek_to (off : Z) (h : fh) : res fh := if off <? 0 then Err ValueError else Ok (fseek (Z.to_nat off) h).
(** dtypes[BlockType.ARRAY], opd.py:32 *)
Definition opd_itemsize (k : Z) : res nat :=
  if k =? 1 then Ok 1%nat else if k =? 2 then Ok 2%nat else if k =? 4 then Ok 4%nat else Err KeyError.
(** np.rot90 of a table with nx rows and ny columns *)
Definition rot90 {A} (d : A) (nx ny : nat) (m : list (list A)) : list (list A) :=
  map (fun i => map (fun j => nth (ny - 1 - i) (nth j m []) d) (seq 0 nx)) (seq 0 ny).
(** opd.py:49-56 (Block._read_array): the item size and the table of items (as bytes) *)
Definition opd_array (size : Z) (h : fh) : res (nat * list (list bytes)) :=
  let '(d, h1) := fread 6 h in
  if negb (Nat.eqb (length d) 6) then Err StructError else
  let nx := item_u (firstn 2 d) in let ny := item_u (firstn 2 (skipn 2 d)) in let k := item_u (skipn 4 d) in
  if negb (nx * ny * k =? size - 6) then Err CorruptedFileError else
  rbind (opd_itemsize k) (fun n =>
  rbind (read_items n (nx * ny) h1) (fun '(items, _) =>
  rmap (fun m => (n, rot90 [] (Z.to_nat nx) (Z.to_nat ny) m)) (reshape (Z.to_nat nx) (Z.to_nat ny) items))).
(** contents of the other blocks: a text or a number (an integer is represented by the double of the same value) *)
Inductive opd_value := ONum (x : f64) | OText (s : pystr).
(** opd.py:58-59 (Block._read_text) *)
Definition opd_text (en : encoding) (size : Z) (h : fh) : res opd_value :=
  if size <? -1 then Err ValueError else
  let '(b, _) := if size =? -1 then fread_all h else fread (Z.to_nat size) h in
  rmap (fun s => OText (rstrip isnul s)) (decode en b).
(** opd.py:61-64 (Block._read_number): as many numbers as fit; the first one counts.  size / itemsize is truncated. *)
Definition opd_number (t size : Z) (h : fh) : res opd_value :=
  let '(n, first) := if t =? 6 then (2%nat, fun c => f64_of_Z (item_i 2 c))
                     else if t =? 7 then (4%nat, fun c => f64_of_f32 (item_f32 c))
                     else if t =? 8 then (8%nat, fun c => b64_of_bits (unle c))
                     else (4%nat, fun c => f64_of_Z (item_i 4 c)) in
  if size <? 0 then Err (if size <? -1 then ValueError else StructError) else
  let '(b, _) := fread (Z.to_nat size) h in
  if negb (Nat.eqb (length b) (Z.to_nat (size / Z.of_nat n) * n)) then Err StructError else
  if Nat.eqb (length b) 0 then Err IndexError else
  Ok (ONum (first (firstn n b))).
(** opd.py:111-118: the metadata of text and number blocks; empty texts are skipped *)
Fixpoint opd_metadata (en : encoding) (l : list (pystr * (Z * Z * Z))) (h : fh) : res (list (pystr * opd_value)) :=
  match l with
  | [] => Ok []
  | (k, (t, s, off)) :: l' =>
    if existsb (Z.eqb t) [5; 6; 7; 8; 12] then
      rbind (seek_to off h) (fun h1 =>
      rbind (if t =? 5 then opd_text en s h1 else opd_number t s h1) (fun v =>
      rbind (opd_metadata en l' h) (fun md =>
      Ok (match v with OText [] => md | _ => (k, v) :: md end))))
    else opd_metadata en l' h
  end.
(** opd.py:119-124 *)
Definition opd_timestamp (parse_date : pystr -> res unit) (md : list (pystr * opd_value)) : res unit :=
  match bget md (str "Date") with
  | None => Ok tt
  | Some (ONum _) => Err TypeError
  | Some (OText d) =>
    match bget md (str "Time") with
    | None => Ok tt
    | Some (ONum _) => Err TypeError
    | Some (OText t) => parse_date (d ++ [32] ++ t)
    end
  end.
(** opd.py:126-128 and the uses of these values: a text raises TypeError *)
Definition opd_label (md : list (pystr * opd_value)) (k : string) : res f64 :=
  match bget md (str k) with None => Ok (f64_of_Z 1) | Some (ONum x) => Ok x | Some (OText _) => Err TypeError end.
(** opd.py:130-140: one item as a height; 32767 and the single next to 1e38 mark unmeasured points *)
Definition opd_height (n : nat) (scale : f64) (c : bytes) : f64 :=
  match n with
  | 1%nat => fmul (f64_of_Z (item_u c)) scale
  | 2%nat => if item_i 2 c =? 32767 then nan64 else fmul (f64_of_Z (item_i 2 c)) scale
  | _ => if feq_s (item_f32 c) (f32_of_f64 (pow10 38)) then nan64 else fmul (f64_of_f32 (item_f32 c)) scale
  end.
(** a falsy float: not header[...], opd.py:86-144 *)
Definition is_zero (x : f64) : bool := match x with B754_zero _ _ _ => true | _ => false end.
(** the table of an array block, wherever it lies; a block of another type is no array (for RAW_DATA the later use of its contents as
    an array raises; for Image this is a simplification) *)
Definition opd_table (t s off : Z) (h : fh) : res (nat * list (list bytes)) :=
  if negb (t =? 3) then Err TypeError else rbind (seek_to off h) (opd_array s).
(** opd.py:106-144: from the table of blocks to the surface.  The image layer holds the raw items. *)
Definition opd_body (parse_date : pystr -> res unit) (en : encoding) (images : bool) (blocks : list (pystr * (Z * Z * Z))) (h : fh)
  : res (raw * list (string * list (list bytes))) :=
  match bget blocks (str "RAW_DATA") with
  | None => Err KeyError
  | Some (t, s, off) =>
    rbind (opd_table t s off h) (fun '(n, data) =>
    rbind (if images then match bget blocks (str "Image") with
                          | Some (t', s', off') => rmap (fun '(_, im) => [("Grayscale"%string, im)]) (opd_table t' s' off' h)
                          | None => Ok [] end
           else Ok []) (fun layers =>
    rbind (opd_metadata en blocks h) (fun md =>
    rbind (opd_timestamp parse_date md) (fun _ =>
    rbind (opd_label md "Wavelength") (fun wl =>
    rbind (opd_label md "Mult") (fun mult =>
    if is_zero mult then Err ZeroDivisionError else
    rbind (opd_label md "Pixel_size") (fun px =>
    rbind (opd_label md "Aspect") (fun aspect =>
    let scale := fdiv (fmul wl (pow10 (-3))) mult in
    let sx := fmul px (pow10 3) in
    Ok ({| rdata := map (map (opd_height n scale)) data; rstep_x := sx; rstep_y := fmul sx aspect |}, layers)))))))))
  end.
(** opd.py:85-144 (read_opd) *)
Definition read_opd (parse_date : pystr -> res unit) (en : encoding) (images : bool) (h : fh)
  : res (raw * list (string * list (list bytes))) :=
  let '(m, h1) := fread (length opd_magic) h in
  if negb (zs_eqb m opd_magic) then Err CorruptedFileError else
  rbind (read_block en (fseek 2 h1)) (fun '(name, (_, size), h2) =>
  if negb (zs_eqb name (str "Directory")) then Err CorruptedFileError else
  rbind (read_blocks en (Z.to_nat (Z.quot size 24 - 1)) [] h2) (fun '(bs, h3) =>
  opd_body parse_date en images (place (Z.of_nat (pos h3)) bs) h3)).
