(** Command line (surfalize/cli.py:63-150, 190-232), Surface.roughness_parameters (surfalize/base.py:527-554) and the collection of
    files from a directory (surfalize/batch.py:576-635). *)
From Coq Require Import String ZArith Bool.
From Coq Require Import List.
From Verif Require Import Base ModelBytes ModelUnits ModelSur ModelDispatch ModelBatch.
Import ListNotations.
Local Open Scope list_scope.

(** click.BadParameter, raised at cli.py:68-106 *)
Definition bad_parameter : exn := OtherError "click.BadParameter".

Section Operations.
Context {St Num : Type}.
(** the calls of Surface methods that occur in cli.py, all with inplace=True *)
Inductive scall :=
  | Fill | Level | Center | Zero | Threshold (ab : Num * Num) | RemoveOutliers (n : Num)
  | Highpass (c : Num) | Lowpass (c : Num) | Bandpass (c c2 : Num).
(** keyword arguments handed over by click: flags are booleans, the others None when not given *)
Record opts := mkOpts {
  o_level : bool; o_fill : bool; o_center : bool; o_zero : bool;
  o_highpass : option Num; o_lowpass : option Num; o_bandpass : option (Num * Num);
  o_threshold : option (Num * Num); o_outliers : option Num }.
(** no option given (defaults of cli.py:108-122) *)
Definition no_opts : opts := mkOpts false false false false None None None None None.
(** one option on the command line *)
Inductive occurrence :=
  | OLevel | OFill | OCenter | OZero | OHighpass (x : Num) | OLowpass (x : Num) | OBandpass (x : Num * Num)
  | OThreshold (x : Num * Num) | OOutliers (x : Num).
(** click: later occurrences of the same option replace earlier ones (cli.py:108-122) *)
Definition give (o : opts) (x : occurrence) : opts :=
  let '(mkOpts l f c z hp lp bp th ro) := o in
  match x with
  | OLevel => mkOpts true f c z hp lp bp th ro
  | OFill => mkOpts l true c z hp lp bp th ro
  | OCenter => mkOpts l f true z hp lp bp th ro
  | OZero => mkOpts l f c true hp lp bp th ro
  | OHighpass v => mkOpts l f c z (Some v) lp bp th ro
  | OLowpass v => mkOpts l f c z hp (Some v) bp th ro
  | OBandpass v => mkOpts l f c z hp lp (Some v) th ro
  | OThreshold v => mkOpts l f c z hp lp bp (Some v) ro
  | OOutliers v => mkOpts l f c z hp lp bp th (Some v)
  end.
(** the options of one command line, cli.py:108-122 *)
Definition parse_options (l : list occurrence) : opts := fold_left give l no_opts.

Variable run : scall -> St -> res St.
(** if kwargs[...]: f, cli.py:68-106 *)
Definition when (b : bool) (f : St -> res St) (s : St) : res St := if b then f s else Ok s.
(** if kwargs[...] is not None: f, cli.py:68-106 *)
Definition given {A} (o : option A) (f : A -> St -> res St) (s : St) : res St := match o with Some x => f x s | None => Ok s end.
(** cli.py:68-101 perform_surface_operations *)
Definition perform_surface_operations (o : opts) (s0 : St) : res St :=
  rbind (when (o_fill o) (run Fill) s0) (fun s =>
  rbind (when (o_level o) (run Level) s) (fun s =>
  rbind (when (o_center o) (run Center) s) (fun s =>
  rbind (when (o_zero o) (run Zero) s) (fun s =>
  rbind (given (o_threshold o) (fun t s => rbind (run (Threshold t) s) (run Fill)) s) (fun s =>
  rbind (given (o_outliers o) (fun n s => rbind (run (RemoveOutliers n) s) (run Fill)) s) (fun s =>
  rbind (given (o_highpass o) (fun c => run (Highpass c)) s) (fun s =>
  rbind (given (o_lowpass o) (fun c => run (Lowpass c)) s) (fun s =>
  given (o_bandpass o) (fun c => run (Bandpass (fst c) (snd c))) s)))))))).
(** cli.py:124-135, the wrapper around the commands *)
Definition count_given (o : opts) : nat :=
  (if o_highpass o then 1 else 0) + (if o_lowpass o then 1 else 0) + (if o_bandpass o then 1 else 0).
(** a command under common_options: load, operations, then the body (cli.py:123-135) *)
Definition command (args : list occurrence) (load : res St) : res St :=
  let o := parse_options args in
  if Nat.ltb 1 (count_given o) then Err bad_parameter
  else if o_zero o && o_center o then Err bad_parameter
  else rbind load (perform_surface_operations o).
End Operations.
Arguments scall : clear implicits.
Arguments opts : clear implicits.
Arguments occurrence : clear implicits.

(** *** cli.py:63-65, 190-232 convert *)
Definition path_stem (p : pystr) : pystr := let n := path_name p in firstn (length n - length (path_suffix p)) n.
(** output_path / name, cli.py:199-232 *)
Definition join (dir name : pystr) : pystr := dir ++ [47%Z] ++ name.
(** one call convert_file(input, output, ..., **kwargs); [None]: no keyword argument, [Some c]: compressed=c *)
Record job := mkJob { j_in : pystr; j_out : pystr; j_compressed : option bool }.
Inductive input := InFile (p : pystr) | InDir (p : pystr) (entries : list (pystr * bool)).   (* names, is_file *)
(** the conversions the command performs, in order; [Ok []] when the format is not supported *)
Definition convert (inp : input) (out : pystr) (out_is_file : bool) (format : pystr) (compressed : bool) : res (list job) :=
  let format := if out_is_file then path_suffix out else format in
  if negb (zs_eqb format (str ".sur")) && compressed then Err bad_parameter
  else if negb (existsb (zs_eqb format) (map fst writers)) then Ok []
  else
    let kw := if zs_eqb format (str ".sur") then Some compressed else None in
    match inp with
    | InFile p => Ok [mkJob p out kw]
    | InDir p entries =>
      if out_is_file then Err (OtherError "FileExistsError") else     (* output_path.mkdir(exist_ok=True) *)
      Ok (map (fun e => mkJob (join p (fst e)) (join out (path_stem (fst e) ++ format)) kw)
              (filter (fun e => snd e && existsb (zs_eqb (path_suffix (fst e))) (map fst readers_by_suffix)) entries))
    end.
(** the writer a job ends up with, and whether it accepts the keyword argument: only write_sur has 'compressed'
    (sur.py:359; al3d.py:24, sdf.py:139, sflz.py:96, tmd.py:38) *)
Definition job_result (j : job) : res format :=
  match assoc (path_suffix (j_out j)) writers with
  | None => Err (if zs_eqb (path_suffix (j_out j)) [] then ValueError else UnsupportedFileFormatError)
  | Some f => match j_compressed j with
              | Some _ => if format_eqb f Sur then Ok f else Err TypeError
              | None => Ok f
              end
  end.

(** *** base.py:527-554 roughness_parameters; [call] is getattr(self, name)() *)
Section Roughness.
Context {St V : Type}.
Variable call : string -> St -> res V * St.
Variables available iso : list string.
(** the loop of roughness_parameters, base.py:545-554 *)
Fixpoint rp_loop (l : list string) (results : dict V) (s : St) : res (dict V) * St :=
  match l with
  | [] => (Ok results, s)
  | p :: l' =>
    if existsb (String.eqb p) available
    then match call p s with
         | (Ok v, s') => rp_loop l' (dset p v results) s'
         | (Err e, s') => (Err e, s')
         end
    else (Err ValueError, s)
  end.
(** base.py:527-554 *)
Definition roughness_parameters (parameters : option (list string)) (s : St) : res (dict V) * St :=
  rp_loop (match parameters with Some l => l | None => iso end) [] s.
End Roughness.

(** *** batch.py:577-589, 615-627: the files of a directory; glob('*' + extension) finds the entries whose name ends with the extension
    (extensions contain no wildcards) *)
Definition ends_with (s suffix : pystr) : bool := Nat.leb (length suffix) (length s) && zs_eqb (skipn (length s - length suffix) s) suffix.
(** dir_path.glob(f'*{extension}'), batch.py:577-613, 637-662 *)
Definition glob (entries : list pystr) (ext : pystr) : list pystr := filter (fun n => ends_with n ext) entries.
(** batch.py:577-613: the files of all extensions, one extension after the other *)
Definition from_dir (entries : list pystr) (exts : list pystr) : list pystr := flat_map (glob entries) exts.
