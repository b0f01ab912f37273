(** Choosing a reader or writer: surfalize/file/common.py:172-185 (open_file_like) and 383-521 (FileHandler), with the
    registrations of surfalize/file/*.py.  The reader and writer functions themselves are parameters here: any
    function from the bytes and the position of an open file to a result and a final position.  A reader that
    never returns (see C56) is not covered. *)
From Coq Require Import String ZArith Bool.
From Coq Require Import List.
From Verif Require Import Base ModelBytes.
Import ListNotations.
Local Open Scope list_scope.

(** The reader functions, in the order in which surfalize/file/__init__.py:4-8 imports their modules. *)
Inductive format := Al3d | Dat | Fits | Gwy | Nms | Opd | Os3d | Plu | Plux | Sdf | Sflz | Sur | Tmd | Vk4 | Vk67
                  | X3p | Xyz | Zmg.
(** whether two registered reader functions are the same (common.py:457-507) *)
Definition format_eqb (a b : format) : bool :=
  match a, b with
  | Al3d, Al3d | Dat, Dat | Fits, Fits | Gwy, Gwy | Nms, Nms | Opd, Opd | Os3d, Os3d | Plu, Plu | Plux, Plux
  | Sdf, Sdf | Sflz, Sflz | Sur, Sur | Tmd, Tmd | Vk4, Vk4 | Vk67, Vk67 | X3p, X3p | Xyz, Xyz | Zmg, Zmg => true
  | _, _ => false
  end.

(** FileHandler._readers_by_suffix: al3d.py:47, dat.py:255, fits.py:72, gwy.py:215, nms.py:17, opd.py:85, os3d.py:30,
    plu.py:47, plux.py:12, sdf.py:128, sflz.py:63, sur.py:326, tmd.py:21, vk.py:158 and 192, x3p.py:32, xyz.py:7,
    zmg.py:20 *)
Definition readers_by_suffix : list (pystr * format) :=
  [ (str ".al3d", Al3d); (str ".dat", Dat); (str ".fits", Fits); (str ".fit", Fits); (str ".fts", Fits);
    (str ".gwy", Gwy); (str ".nms", Nms); (str ".opd", Opd); (str ".os3d", Os3d); (str ".plu", Plu);
    (str ".plux", Plux); (str ".sdf", Sdf); (str ".sflz", Sflz); (str ".sur", Sur); (str ".tmd", Tmd);
    (str ".vk4", Vk4); (str ".vk6", Vk67); (str ".vk7", Vk67); (str ".x3p", X3p); (str ".xyz", Xyz);
    (str ".zmg", Zmg) ].
(** FileHandler._readers_by_magic, same decorators; the magics are al3d.py:6, dat.py:8-10, fits.py:5, gwy.py:8,
    opd.py:10, os3d.py:11, sdf.py:9-10, sflz.py:6, sur.py:14-15, tmd.py:4, vk.py:158/192, x3p.py:12, zmg.py:5 *)
Definition readers_by_magic : list (bytes * format) :=
  [ (str "AliconaImaging" ++ [0; 13; 10]%Z, Al3d);
    ([136; 27; 3; 111]%Z, Dat); ([136; 27; 3; 112]%Z, Dat); ([136; 27; 3; 113]%Z, Dat);
    (str "SIMPLE", Fits); (str "GWYP", Gwy); ([1; 0]%Z ++ str "Directory", Opd); (str "OmniSurf3D", Os3d);
    (str "aISO-1.0", Sdf); (str "bISO-1.0", Sdf); (str "SFLZ", Sflz);
    (str "DIGITAL SURF", Sur); (str "DSCOMPRESSED", Sur); (str "Binary TrueMap Data File v2.0", Tmd);
    (str "VK4_", Vk4); (str "VK6", Vk67); (str "VK7", Vk67); (str "PK" ++ [3; 4; 20]%Z, X3p);
    (str "Zeta-Instruments", Zmg) ].
(** The attribute func._suffix (common.py:423): [Some] for a single suffix, [None] for a tuple, which is different
    from every string. *)
Definition suffix_attr (f : format) : option pystr :=
  match f with
  | Al3d => Some (str ".al3d") | Dat => Some (str ".dat") | Fits => None | Gwy => Some (str ".gwy")
  | Nms => Some (str ".nms") | Opd => Some (str ".opd") | Os3d => Some (str ".os3d") | Plu => Some (str ".plu")
  | Plux => Some (str ".plux") | Sdf => Some (str ".sdf") | Sflz => Some (str ".sflz") | Sur => Some (str ".sur")
  | Tmd => Some (str ".tmd") | Vk4 => Some (str ".vk4") | Vk67 => None | X3p => Some (str ".x3p")
  | Xyz => Some (str ".xyz") | Zmg => Some (str ".zmg")
  end.
(** FileHandler._writers: al3d.py:23, sdf.py:138, sflz.py:95, sur.py:358, tmd.py:37 *)
Definition writers : list (pystr * format) :=
  [ (str ".al3d", Al3d); (str ".sdf", Sdf); (str ".sflz", Sflz); (str ".sur", Sur); (str ".tmd", Tmd) ].

(** d.get(k) of the registries, common.py:383-450 *)
Fixpoint assoc {A} (k : list Z) (l : list (list Z * A)) : option A :=
  match l with [] => None | (k', v) :: l' => if zs_eqb k k' then Some v else assoc k l' end.

(** pathlib: PurePath.name of a path in normal form without trailing slash, and PurePath.suffix (rfind('.'), neither
    first nor last character of the name) *)
Fixpoint after_last (c : Z) (s : pystr) : option pystr :=
  match s with
  | [] => None
  | x :: s' => match after_last c s' with Some t => Some t | None => if (x =? c)%Z then Some s' else None end
  end.
(** PurePath(p).name, common.py:389-394 *)
Definition path_name (p : pystr) : pystr := match after_last 47 p with Some t => t | None => p end.
(** PurePath(p).suffix, common.py:389-394 *)
Definition path_suffix (p : pystr) : pystr :=
  let n := path_name p in
  match after_last 46 n with
  | Some (c :: t) => if Nat.eqb (length n) (S (length (c :: t))) then [] else 46%Z :: c :: t
  | _ => []
  end.

(** str.lower, only on ASCII letters *)
Definition lower_ascii (s : pystr) : pystr := map (fun c => if (65 <=? c)%Z && (c <=? 90)%Z then (c + 32)%Z else c) s.

(** What the user hands over: a path, an io.IOBase buffer, or something else. *)
Inductive source := Path (p : pystr) | Buffer | Other.
(** The files on disk, and the contents and position of the buffer. *)
Record world := mkWorld { files : pystr -> option bytes; buf : bytes; bpos : nat }.
(** buffer.seek(p), common.py:457-507 *)
Definition set_pos (w : world) (p : nat) : world := mkWorld (files w) (buf w) p.
(** common.py:452-455 (is_path_like) *)
Definition is_path (s : source) : bool := match s with Path _ => true | _ => false end.
(** the FileNotFoundError open raises, common.py:173-185 *)
Definition not_found : exn := OtherError "FileNotFoundError".

(** common.py:172-185 open_file_like in mode 'rb': a path is opened afresh; a buffer is used where it stands and is moved
    back only if the body does not raise. *)
Definition with_file {Y} (s : source) (w : world) (body : bytes -> nat -> res Y * nat) : res Y * world :=
  match s with
  | Path p => match files w p with
              | None => (Err not_found, w)
              | Some b => (fst (body b 0%nat), w)
              end
  | Buffer => match body (buf w) (bpos w) with
              | (Ok y, _) => (Ok y, w)
              | (Err e, p') => (Err e, set_pos w p')
              end
  | Other => (Err TypeError, w)
  end.

(** The mismatch warnings of common.py:487-489 and 499-502: the suffix of the path and the detected format. *)
Record warning := mkWarn { declared : pystr; detected : format }.

Section Reading.
Variable X : Type.                                    (* RawSurface *)
Definition reader := bytes -> nat -> res X * nat.
Variable readers : format -> reader.

(** common.py:457-477, the attempt with the declared format: [inl] a result; [inr] the pending exception, if any, and the
    lower case suffix *)
Definition declared_suffix (s : source) (fmt : option pystr) : option pystr :=
  match fmt, s with
  | Some f, _ => Some (lower_ascii f)
  | None, Path p => Some (lower_ascii (path_suffix p))
  | None, _ => None
  end.
(** common.py:457-477: the attempt with the reader of the given format *)
Definition try_declared (s : source) (fmt : option pystr) (w : world) : (X + option exn) * world :=
  match declared_suffix s fmt with
  | None => (inr None, w)
  | Some suffix =>
    match assoc suffix readers_by_suffix with
    | None => (inr (Some UnsupportedFileFormatError), w)
    | Some f => match with_file s w (readers f) with
                | (Ok x, w') => (inl x, w')
                | (Err e, w') => (inr (Some e), w')
                end
    end
  end.

(** common.py:481-491, one magic: [Ok None] means that it does not match *)
Definition probe_magic (m : bytes) (f : format) (b : bytes) (p : nat) : res (option X) * nat :=
  let d := firstn (length m) (skipn p b) in
  if zs_eqb d m then let (r, p') := readers f b 0%nat in (rmap Some r, p') else (Ok None, (p + length d)%nat).
(** common.py:482-484: the first bytes are the magic *)
Definition matches (s : source) (w : world) (m : bytes) : bool :=
  match s with
  | Path p => match files w p with Some b => zs_eqb (firstn (length m) b) m | None => false end
  | Buffer => zs_eqb (firstn (length m) (skipn (bpos w) (buf w))) m
  | Other => false
  end.
(** common.py:485-488: the warning that the file's content does not fit its suffix *)
Definition magic_warning (s : source) (fmt : option pystr) (f : format) : list warning :=
  match s, declared_suffix s fmt, suffix_attr f with
  | Path p, Some suffix, Some a => if zs_eqb a suffix then [] else [mkWarn (path_suffix p) f]
  | Path p, _, _ => [mkWarn (path_suffix p) f]
  | _, _, _ => []
  end.
(** common.py:481-491: the loop over the registered magics *)
Fixpoint try_magic (s : source) (fmt : option pystr) (ms : list (bytes * format)) (w : world)
  : option (res X * list warning) * world :=
  match ms with
  | [] => (None, w)
  | (m, f) :: ms' =>
    let warns := if matches s w m then magic_warning s fmt f else [] in
    match with_file s w (probe_magic m f) with
    | (Ok None, w') => try_magic s fmt ms' w'
    | (Ok (Some x), w') => (Some (Ok x, warns), w')
    | (Err e, w') => (Some (Err e, warns), w')
    end
  end.

(** common.py:493-507, the last resort.  For a buffer the warning itself raises AttributeError (a buffer has no suffix),
    which is swallowed like every exception of the reader. *)
Fixpoint try_all (s : source) (rs : list (pystr * format)) (w : world) : option (X * list warning) * world :=
  match rs with
  | [] => (None, w)
  | (_, f) :: rs' =>
    match with_file s w (readers f) with
    | (Ok x, w') => match s with
                    | Path p => (Some (x, [mkWarn (path_suffix p) f]), w')
                    | _ => try_all s rs' w'
                    end
    | (Err _, w') => try_all s rs' w'
    end
  end.

(** common.py:457-507 FileHandler.read (Surface.load, surface.py:274-299, wraps the result) *)
Definition load (s : source) (fmt : option pystr) (w : world) : (res X * list warning) * world :=
  match try_declared s fmt w with
  | (inl x, w1) => ((Ok x, []), w1)
  | (inr pending, w1) =>
    match try_magic s fmt readers_by_magic w1 with
    | (Some r, w2) => (r, w2)
    | (None, w2) =>
      match try_all s readers_by_suffix w2 with
      | (Some (x, ws), w3) => ((Ok x, ws), w3)
      | (None, w3) => ((Err (match pending with Some e => e | None => UnsupportedFileFormatError end), []), w3)
      end
    end
  end.
End Reading.

Section Writing.
Variable S : Type.                                    (* the surface with all options *)
(** What a writer has written when it returns or raises. *)
Definition writer := S -> bytes * res unit.
Variable writer_of : format -> writer.
(** whether open(path, 'wb') succeeds *)
Variable creatable : pystr -> bool.

(** writing a file on disk, common.py:509-521 *)
Definition set_file (w : world) (p : pystr) (b : bytes) : world :=
  mkWorld (fun q => if zs_eqb q p then Some b else files w q) (buf w) (bpos w).
(** BytesIO.write at the current position *)
Definition overwrite (b : bytes) (p : nat) (new : bytes) : bytes :=
  match new with [] => b | _ => firstn p b ++ repeat 0%Z (p - length b) ++ new ++ skipn (p + length new) b end.

(** common.py:509-521 FileHandler.write, called by Surface.save (surface.py:349) *)
Definition save (s : source) (fmt : option pystr) (w : world) (x : S) : res unit * world :=
  let suffix := match s with Path p => path_suffix p | _ => match fmt with Some f => f | None => [] end end in
  if zs_eqb suffix [] then (Err ValueError, w)
  else match assoc suffix writers with
  | None => (Err UnsupportedFileFormatError, w)
  | Some f =>
    match s with
    | Path p => if creatable p then let (b, r) := writer_of f x in (r, set_file w p b)
                else (Err not_found, w)
    | Buffer => let (b, r) := writer_of f x in
                let w' := mkWorld (files w) (overwrite (buf w) (bpos w) b) (bpos w) in
                match r with
                | Ok _ => (r, w')
                | Err _ => (r, set_pos w' (bpos w + length b))
                end
    | Other => (Err TypeError, w)
    end
  end.
End Writing.
