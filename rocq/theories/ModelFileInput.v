(** Files in memory in a batch: FileInput (surfalize/batch.py:26-33), Surface.load of a buffer (surfalize/file/common.py:172-185, 457-507,
    surface.py:274-299) and the thread pool (batch.py:664-723), at the level of single calls of the buffer's methods: a BytesIO shared by
    two threads keeps one position, and another thread may run between any two calls (each call itself is atomic under the GIL). *)
From Coq Require Import String.
From Coq Require Import List ZArith Bool.
From Verif Require Import Base ModelBytes ModelSur ModelFormats ModelDispatch.
Import ListNotations.
Local Open Scope list_scope.

(** what a function does with the file object it got: it returns or raises, or calls read(n), read(), tell(), seek(p), seek(n, 1) and
    goes on with the answer (the readers of surfalize/file are such functions) *)
Inductive prog (Y : Type) :=
  | Ret (r : res Y)
  | Read (n : option nat) (k : bytes -> prog Y)
  | Tell (k : nat -> prog Y)
  | SeekTo (p : nat) (k : prog Y)
  | Skip (n : nat) (k : prog Y).
Arguments Ret {Y}. Arguments Read {Y}. Arguments Tell {Y}. Arguments SeekTo {Y}. Arguments Skip {Y}.

(** io.BytesIO.read(n) and read() at position p: the bytes; the position moves behind them *)
Definition read_at (b : bytes) (p : nat) (n : option nat) : bytes :=
  match n with Some n => firstn n (skipn p b) | None => skipn p b end.
(** one call of a method of the buffer: the new position and the rest of the program *)
Definition call {Y} (b : bytes) (p : nat) (pr : prog Y) : option (nat * prog Y) :=
  match pr with
  | Ret _ => None
  | Read n k => let d := read_at b p n in Some ((p + length d)%nat, k d)
  | Tell k => Some (p, k p)
  | SeekTo q k => Some (q, k)
  | Skip n k => Some ((p + n)%nat, k)
  end.
(** the function called by one thread alone: its result and where it leaves the buffer *)
Fixpoint exec {Y} (pr : prog Y) (b : bytes) (p : nat) : res Y * nat :=
  match pr with
  | Ret r => (r, p)
  | Read n k => let d := read_at b p n in exec (k d) b (p + length d)%nat
  | Tell k => exec (k p) b p
  | SeekTo q k => exec k b q
  | Skip n k => exec k b (p + n)%nat
  end.
(** r = f(file); g(r), where g also learns the exception (try ... except) *)
Fixpoint andthen {Y Z} (pr : prog Y) (g : res Y -> prog Z) : prog Z :=
  match pr with
  | Ret r => g r
  | Read n k => Read n (fun d => andthen (k d) g)
  | Tell k => Tell (fun p => andthen (k p) g)
  | SeekTo p k => SeekTo p (andthen k g)
  | Skip n k => Skip n (andthen k g)
  end.
(** r = f(file); g(r): an exception of f is passed on *)
Definition ok_then {Y Z} (pr : prog Y) (g : Y -> prog Z) : prog Z :=
  andthen pr (fun r => match r with Ok y => g y | Err e => Ret (Err e) end).

(** common.py:172-185 open_file_like on a buffer: tell, the body, and seek back unless the body raised *)
Definition with_buffer {Y} (body : prog Y) : prog Y :=
  Tell (fun p => andthen body (fun r => match r with Ok y => SeekTo p (Ret (Ok y)) | Err e => Ret (Err e) end)).

Section Loading.
Variable X : Type.                                    (* RawSurface *)
Variable readers : format -> prog X.
(** common.py:493-507: all readers one after the other.  Even a success does not end the loop: the warning asks the buffer for its suffix,
    which raises AttributeError inside the try *)
Fixpoint all_loop (rs : list (pystr * format)) (pending : option exn) : prog X :=
  match rs with
  | [] => Ret (Err (match pending with Some e => e | None => UnsupportedFileFormatError end))
  | (_, f) :: rs' => andthen (with_buffer (readers f)) (fun _ => all_loop rs' pending)
  end.
(** common.py:481-491: the magics one after the other *)
Fixpoint magic_loop (ms : list (bytes * format)) (pending : option exn) : prog X :=
  match ms with
  | [] => all_loop readers_by_suffix pending
  | (m, f) :: ms' =>
    andthen (with_buffer (Read (Some (length m)) (fun d =>
               if zs_eqb d m then SeekTo 0 (andthen (readers f) (fun r => Ret (rmap Some r))) else Ret (Ok None))))
      (fun r => match r with Ok None => magic_loop ms' pending | Ok (Some x) => Ret (Ok x) | Err e => Ret (Err e) end)
  end.
(** common.py:457-507 FileHandler.read on a buffer *)
Definition load_prog (fmt : option pystr) : prog X :=
  match fmt with
  | None => magic_loop readers_by_magic None
  | Some f =>
    match assoc (lower_ascii f) readers_by_suffix with
    | None => magic_loop readers_by_magic (Some UnsupportedFileFormatError)
    | Some rd => andthen (with_buffer (readers rd))
                   (fun r => match r with Ok x => Ret (Ok x) | Err e => magic_loop readers_by_magic (Some e) end)
    end
  end.

(** batch.py:26-33: the address of the buffer stands for the object *)
Record file_input := mkFI { fi_name : pystr; fi_data : nat; fi_format : option pystr }.
Variable Y : Type.                                    (* the dictionary of results *)
(** the steps of the batch on the loaded surface (ModelBatch.v); they do not touch the buffer *)
Variable work : file_input -> X -> res Y.
(** batch.py:405-449 _task of a FileInput *)
Definition task_prog (f : file_input) : prog Y := ok_then (load_prog (fi_format f)) (fun x => Ret (work f x)).
End Loading.
Arguments load_prog {X}. Arguments all_loop {X}. Arguments magic_loop {X}. Arguments task_prog {X} _ {Y}.

Section Pool.
Variable Y : Type.
(** contents and position of every buffer *)
Local Notation memory := (list (bytes * nat)).
(** a thread: the address of its buffer and what it has yet to do, None when its result has been delivered *)
Local Notation worker := (nat * option (prog Y))%type.
(** replacing an element *)
Fixpoint put {A} (n : nat) (x : A) (l : list A) : list A :=
  match l, n with [], _ => [] | _ :: l', O => x :: l' | y :: l', S n' => y :: put n' x l' end.
(** one call by thread i; a thread that has finished its function puts its result into the queue *)
Definition turn (i : nat) (st : memory * list worker * list (nat * res Y)) : memory * list worker * list (nat * res Y) :=
  let '(mem, ts, q) := st in
  match nth_error ts i with
  | Some (a, Some (Ret r)) => (mem, put i (a, None) ts, q ++ [(i, r)])
  | Some (a, Some pr) =>
    match nth_error mem a with
    | Some (b, p) => match call b p pr with
                     | Some (p', pr') => (put a (b, p') mem, put i (a, Some pr') ts, q)
                     | None => st
                     end
    | None => st
    end
  | _ => st
  end.
(** batch.py:705-715, ThreadPool.imap_unordered: the schedule says which thread runs next *)
Definition pool (schedule : list nat) st := fold_left (fun st i => turn i st) schedule st.
(** every file has been processed *)
Definition done (ts : list worker) : Prop := forall t, In t ts -> snd t = None.
(** batch.py:717-723, multiprocessing=False: one file after the other.  (The loop ends at the first exception, the queue here goes on.) *)
Fixpoint one_by_one (i : nat) (mem : memory) (ts : list (nat * prog Y)) : memory * list (nat * res Y) :=
  match ts with
  | [] => (mem, [])
  | (a, pr) :: ts' =>
    match nth_error mem a with
    | Some (b, p) => let (r, p') := exec pr b p in
                     let (mem', q) := one_by_one (S i) (put a (b, p') mem) ts' in (mem', (i, r) :: q)
    | None => one_by_one (S i) mem ts'
    end
  end.
End Pool.
Arguments turn {Y}. Arguments pool {Y}. Arguments done {Y}. Arguments one_by_one {Y}.

(** *** One reader in full: tmd.py:21-35 with the layout of common.py:229-336 *)
(** Entry.read, common.py:262-276: one read *)
Definition value_prog (en : encoding) (f : fmt) : prog pyval :=
  Read (Some (calcsize f)) (fun b => Ret (rbind (unpack f b) (fun v =>
    match v with VBytes raw => rmap (fun s => VStr (rstrip blank0 s)) (decode en raw) | _ => Ok v end))).
(** Entry.read and Reserved.read, common.py:234-235, 262-276 *)
Definition entry_prog (en : encoding) (e : entry) (d : dict) : prog dict :=
  match e with
  | Reserved n => Skip n (Ret (Ok d))
  | Entry name (Convert f rd _) =>
    Read (Some (calcsize f)) (fun b => Ret (rbind (unpack f b) (fun v => rmap (dset d name) (rd v))))
  | Entry name ef =>
    match (match ef with FromPrev p => get_format d p | Fixed f => Ok f | Convert f _ _ => Ok f end) with
    | Err e => Ret (Err e)
    | Ok f => ok_then (value_prog en f) (fun v => Ret (Ok (dset d name v)))
    end
  end.
(** Layout.read, common.py:302-336 *)
Fixpoint layout_prog (en : encoding) (l : list entry) (d : dict) : prog dict :=
  match l with [] => Ret (Ok d) | e :: l' => ok_then (entry_prog en e d) (layout_prog en l') end.
(** tmd.py:21-35 (read_tmd); what comes after the last read touches no buffer *)
Definition tmd_prog : prog raw :=
  Read (Some (length tmd_magic)) (fun m =>
  if negb (zs_eqb m tmd_magic) then Ret (Err CorruptedFileError) else
  SeekTo 0 (ok_then (layout_prog Utf8 tmd_layout []) (fun d =>
  Read None (fun b => Ret (
    rbind (f32_array b) (fun l =>
    rbind (hint d "height"%string) (fun ny =>
    rbind (hint d "width"%string) (fun nx =>
    if negb (zlen l =? ny * nx)%Z then Err CorruptedFileError else
    rbind (reshape (Z.to_nat ny) (Z.to_nat nx) l) (fun data =>
    rbind (hflt d "length_x"%string) (fun lx =>
    rbind (pydiv lx nx) (fun sx =>
    rbind (hflt d "length_y"%string) (fun ly =>
    rbind (pydiv ly ny) (fun sy =>
    Ok {| rdata := map (map f64_of_f32) data; rstep_x := sx; rstep_y := sy |}))))))))))))).
