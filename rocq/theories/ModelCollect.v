(** What a Batch is made of: its files (surfalize/batch.py:504-511, 577-662, 429-433), its methods, which are taken from the class Surface
    (batch.py:520-530, 535-574, the decorator base.py:41-93), and how their arguments reach the method of Surface. *)
From Coq Require Import String ZArith Bool.
From Coq Require Import List.
From Verif Require Import Base ModelBytes ModelUnits ModelSur ModelDispatch ModelBatch ModelCli ModelReport.
Import ListNotations.
Local Open Scope string_scope.
Local Open Scope list_scope.

(** *** The files *)
(** what Python hands over as one file: a str, a pathlib.Path, a FileInput (batch.py:26-33: a name, an open file, here known by a number,
    and perhaps a format) or any other object *)
Inductive pyobj := OStr (s : pystr) | OPath (p : pystr) | OInput (name : pystr) (data : nat) (format : option pystr) | OOther.
(** what is handed over as [files]: one object, a sequence (list, tuple, numpy array: utils.is_list_like, utils.py:45-58), or another
    iterable (generator, set, the result of Path.glob) *)
Inductive pyfiles := One (o : pyobj) | Seq (l : list pyobj) | Iterable (l : list pyobj).
(** an entry of Batch._files *)
Inductive bfile := BPath (p : pystr) | BInput (name : pystr) (data : nat) (format : option pystr).
(** batch.py:507-510, 631-634; Path(x) keeps the text (the normalisation done by pathlib is not modelled) *)
Definition to_file (o : pyobj) : res bfile :=
  match o with
  | OStr s => Ok (BPath s)
  | OPath p => Ok (BPath p)
  | OInput n d f => Ok (BInput n d f)
  | OOther => Err TypeError
  end.
(** iter(files): a str yields its characters, a Path, a FileInput or another object is not iterable *)
Definition iterate (a : pyfiles) : res (list pyobj) :=
  match a with
  | One (OStr s) => Ok (map (fun c => OStr [c]) s)
  | One _ => Err TypeError
  | Seq l | Iterable l => Ok l
  end.
(** the loop batch.py:506-510 and 630-634: files before a faulty one have already been appended *)
Fixpoint append_all (fs : list bfile) (l : list pyobj) : res unit * list bfile :=
  match l with
  | [] => (Ok tt, fs)
  | o :: l' => match to_file o with Ok f => append_all (fs ++ [f]) l' | Err e => (Err e, fs) end
  end.
(** batch.py:504-510 Batch(files): no Batch exists if it raises *)
Definition new_batch (a : pyfiles) : res (list bfile) :=
  rbind (iterate a) (fun l => match append_all [] l with (Ok _, fs) => Ok fs | (Err e, _) => Err e end).
(** batch.py:615-635 add_files *)
Definition add_files (fs : list bfile) (a : pyfiles) : res unit * list bfile :=
  let a' := match a with
            | One o => Seq [o]
            | Seq l => Seq l
            | Iterable _ => Seq [OOther]             (* not list-like: wrapped as one object, which is not a file *)
            end in
  match iterate a' with Ok l => append_all fs l | Err e => (Err e, fs) end.
(** the file extensions: None, one str or several *)
Inductive pyexts := NoExts | OneExt (e : pystr) | Exts (l : list pystr).
(** batch.py:606-610, 653-657; [all]: the order in which the set supported_formats_read is iterated *)
Definition extensions (all : list pystr) (e : pyexts) : list pystr :=
  match e with NoExts => all | OneExt x => [x] | Exts l => l end.
(** batch.py:611-613, 658-661: [entries] are the names of the files in the directory [dir]; from_dir is ModelCli's *)
Definition dir_files (all : list pystr) (dir : pystr) (entries : list pystr) (e : pyexts) : list pystr :=
  map (join dir) (from_dir entries (extensions all e)).
(** batch.py:577-613 Batch.from_dir *)
Definition batch_from_dir (all : list pystr) (dir : pystr) (entries : list pystr) (e : pyexts) : res (list bfile) :=
  new_batch (Seq (map OPath (dir_files all dir entries e))).
(** batch.py:637-662 add_dir *)
Definition add_dir (all : list pystr) (fs : list bfile) (dir : pystr) (entries : list pystr) (e : pyexts) : res unit * list bfile :=
  (Ok tt, fs ++ map BPath (dir_files all dir entries e)).
(** a caller's history *)
Inductive fcall := AddFiles (a : pyfiles) | AddDir (dir : pystr) (entries : list pystr) (e : pyexts).
(** one call of add_files or add_dir, batch.py:615-662 *)
Definition fstep (all : list pystr) (fs : list bfile) (c : fcall) : res unit * list bfile :=
  match c with AddFiles a => add_files fs a | AddDir d n e => add_dir all fs d n e end.
(** a history of such calls, batch.py:615-662 *)
Fixpoint fhistory (all : list pystr) (fs : list bfile) (cs : list fcall) : list (res unit) * list bfile :=
  match cs with
  | [] => ([], fs)
  | c :: cs' => let (r, fs1) := fstep all fs c in let (rs, fs2) := fhistory all fs1 cs' in (r :: rs, fs2)
  end.
(** batch.py:532-533 len(batch) *)
Definition batch_len (fs : list bfile) : nat := length fs.
(** batch.py:433: the entry of the column 'file' *)
Definition shown_name (f : bfile) : pystr := match f with BPath p => path_name p | BInput n _ _ => n end.
(** batch.py:429-432: what is handed to Surface.load *)
Definition load_arguments (f : bfile) : (pystr + nat) * option pystr :=
  match f with BPath p => (inl p, None) | BInput _ d fmt => (inr d, fmt) end.

(** *** The methods *)
Record bmethod := mkB {
  b_type : mtype;
  b_params : list (string * bool);      (* the parameters after self; true: has a default value *)
  b_fixed : dict bool;
  b_labels : option (list string) }.
(** base.py:64-74, the decorator: only fixed arguments the method has are kept *)
Definition decorate (t : mtype) (labels : option (list string)) (fixed : dict bool) (params : list (string * bool)) : option bmethod :=
  Some (mkB t params (filter (fun kv => existsb (String.eqb (fst kv)) ("self" :: map fst params)) fixed) labels).
(** the __dict__ of a class: None for attributes without _batch_type *)
Definition pyclass := list (string * option bmethod).
(** batch.py:523-530: one class; [seen] and the methods registered so far *)
Fixpoint walk_class (c : pyclass) (st : list string * dict bmethod) : list string * dict bmethod :=
  match c with
  | [] => st
  | (n, m) :: c' =>
    let (seen, out) := st in
    if existsb (String.eqb n) seen then walk_class c' st
    else walk_class c' (n :: seen, match m with Some b => dset n b out | None => out end)
  end.
(** the loop over type(self).mro() in Batch.__init__, batch.py:520-530 *)
Definition walk (mro : list pyclass) : dict bmethod := snd (fold_left (fun st c => walk_class c st) mro ([], [])).
(** getattr on the class: the first class in the method resolution order that has the name *)
Fixpoint resolve (mro : list pyclass) (n : string) : option (option bmethod) :=
  match mro with
  | [] => None
  | c :: mro' => match dget n c with Some m => Some m | None => resolve mro' n end
  end.
(** getattr on a Batch: the instance attributes come before the functions of the class (setattr in batch.py:574) *)
Inductive battr := BatchVersion (b : bmethod) | OwnMethod.
(** getattr(batch, n): instance attributes (setattr, batch.py:574) before the functions of the class *)
Definition batch_attribute (mro : list pyclass) (own : list string) (n : string) : option battr :=
  match dget n (walk mro) with
  | Some b => Some (BatchVersion b)
  | None => if existsb (String.eqb n) own then Some OwnMethod else None
  end.
(** batch.py:560, 568-571: the signature shown for the method of the Batch *)
Definition batch_signature (b : bmethod) : list (string * bool) :=
  filter (fun p => negb (existsb (String.eqb (fst p)) ("self" :: map fst (b_fixed b)))) (b_params b).

(** *** Arguments *)
(** Python's rules for a call f(args, kwargs) of a function with parameters that are neither positional-only nor keyword-only: the
    value of every parameter, None standing for its default value *)
Definition bind_args {A} (params : list (string * bool)) (args : list A) (kwargs : dict A) : res (dict (option A)) :=
  if Nat.ltb (length params) (length args) then Err TypeError
  else if existsb (fun kv => existsb (fun p => String.eqb (fst p) (fst kv)) (firstn (length args) params)) kwargs then Err TypeError
  else if existsb (fun kv => negb (existsb (fun p => String.eqb (fst p) (fst kv)) params)) kwargs then Err TypeError
  else if existsb (fun p => negb (snd p) && match dget (fst p) kwargs with None => true | _ => false end) (skipn (length args) params) then Err TypeError
  else Ok (combine (map fst (firstn (length args) params)) (map Some args) ++
           map (fun p => (fst p, dget (fst p) kwargs)) (skipn (length args) params)).
(** batch.py:538-540: the fixed arguments override what the caller gave *)
Definition with_fixed {A} (fixed : dict A) (kwargs : dict A) : dict A := fold_left (fun a p => dset (fst p) (snd p) a) fixed kwargs.
(** batch.version(args, kwargs) as it reaches the method of Surface when the batch is executed: batch.py:538-546, 306-307, 359-361 *)
Definition batch_call {A} (value : bool -> A) (b : bmethod) (args : list A) (kwargs : dict A) : res (dict (option A)) :=
  bind_args (b_params b) args (with_fixed (map (fun kv => (fst kv, value (snd kv))) (b_fixed b)) kwargs).

(** *** The classes of the library, generated from the source text *)
(** surface.py:33-1879 class Surface: the names in its body in order (line numbers in front), the decorated ones with their parameters
    after self (true: has a default value), the fixed keyword arguments named by the decorator and the return labels *)
Definition surface_class : pyclass :=
  [(* 103 *) ("ISO_PARAMETERS", None);
   (* 107 *) ("NON_ISO_PARAMETERS", None);
   (* 108 *) ("AVAILABLE_PARAMETERS", None);
   (* 110 *) ("__init__", None);
   (* 125 *) ("__repr__", None);
   (* 129 *) ("data", None);
   (* 148 *) ("size", None);
   (* 170 *) ("_set_data", None);
   (* 199 *) ("_with_data", None);
   (* 202 *) ("_arithmetic_operation", None);
   (* 224 *) ("__add__", None);
   (* 227 *) ("__radd__", None);
   (* 229 *) ("__sub__", None);
   (* 232 *) ("__rsub__", None);
   (* 235 *) ("__mul__", None);
   (* 238 *) ("__rmul__", None);
   (* 240 *) ("__truediv__", None);
   (* 243 *) ("__eq__", None);
   (* 257 *) ("__hash__", None);
   (* 260 *) ("__getitem__", None);
   (* 274 *) ("load", None);
   (* 302 *) ("from_raw_surface", None);
   (* 319 *) ("save", None);
   (* 351 *) ("get_image_layer_names", None);
   (* 361 *) ("get_horizontal_profile", None);
   (* 401 *) ("get_vertical_profile", None);
   (* 442 *) ("get_oblique_profile", None);
   (* 492 *) ("fill_nonmeasured", decorate TOperation None [("inplace", true)] [("method", true); ("inplace", true)]);
   (* 525 *) ("level", decorate TOperation None [("inplace", true); ("return_trend", false)] [("return_trend", true); ("inplace", true)]);
   (* 544 *) ("detrend_polynomial", decorate TOperation None [("inplace", true); ("return_trend", false)] [("degree", true); ("inplace", true); ("return_trend", true)]);
   (* 610 *) ("rotate", decorate TOperation None [("inplace", true)] [("angle", false); ("inplace", true)]);
   (* 663 *) ("zoom", decorate TOperation None [("inplace", true)] [("factor", false); ("inplace", true)]);
   (* 689 *) ("crop", decorate TOperation None [("inplace", true)] [("box", false); ("in_units", true); ("inplace", true)]);
   (* 723 *) ("align", decorate TOperation None [("inplace", true)] [("axis", true); ("method", true); ("inplace", true)]);
   (* 754 *) ("_stepheight_get_mask", None);
   (* 772 *) ("stepheight_level", decorate TOperation None [("inplace", true)] [("inplace", true)]);
   (* 814 *) ("_stepheight_get_upper_lower_median", None);
   (* 831 *) ("stepheight", decorate TParameter None [("inplace", true)] []);
   (* 844 *) ("cavity_volume", decorate TParameter None [("inplace", true)] [("threshold", true)]);
   (* 870 *) ("height_parameters", None);
   (* 895 *) ("Sa", decorate TParameter None [("inplace", true)] []);
   (* 906 *) ("Sq", decorate TParameter None [("inplace", true)] []);
   (* 917 *) ("Sp", decorate TParameter None [("inplace", true)] []);
   (* 928 *) ("Sv", decorate TParameter None [("inplace", true)] []);
   (* 939 *) ("Sz", decorate TParameter None [("inplace", true)] []);
   (* 950 *) ("Ssk", decorate TParameter None [("inplace", true)] []);
   (* 962 *) ("Sku", decorate TParameter None [("inplace", true)] []);
   (* 976 *) ("projected_area", decorate TParameter None [("inplace", true)] []);
   (* 989 *) ("surface_area", decorate TParameter None [("inplace", true)] []);
   (* 1016 *) ("Sdr", decorate TParameter None [("inplace", true)] []);
   (* 1029 *) ("Sdq", decorate TParameter None [("inplace", true)] []);
   (* 1045 *) ("get_autocorrelation_function", decorate TParameter None [("inplace", true)] []);
   (* 1058 *) ("get_fourier_transform", decorate TParameter None [("inplace", true)] []);
   (* 1071 *) ("Sal", decorate TParameter None [("inplace", true)] [("s", true)]);
   (* 1094 *) ("Str", decorate TParameter None [("inplace", true)] [("s", true)]);
   (* 1119 *) ("Sk", decorate TParameter None [("inplace", true)] []);
   (* 1130 *) ("Spk", decorate TParameter None [("inplace", true)] []);
   (* 1141 *) ("Svk", decorate TParameter None [("inplace", true)] []);
   (* 1152 *) ("Spkx", decorate TParameter None [("inplace", true)] []);
   (* 1164 *) ("Svkx", decorate TParameter None [("inplace", true)] []);
   (* 1176 *) ("Sak1", decorate TParameter None [("inplace", true)] []);
   (* 1188 *) ("Sak2", decorate TParameter None [("inplace", true)] []);
   (* 1200 *) ("Smr1", decorate TParameter None [("inplace", true)] []);
   (* 1211 *) ("Smr2", decorate TParameter None [("inplace", true)] []);
   (* 1222 *) ("Smrk1", decorate TParameter None [("inplace", true)] []);
   (* 1234 *) ("Smrk2", decorate TParameter None [("inplace", true)] []);
   (* 1246 *) ("Smr", decorate TParameter None [("inplace", true)] [("c", false)]);
   (* 1262 *) ("Smc", decorate TParameter None [("inplace", true)] [("mr", false)]);
   (* 1278 *) ("Sxp", decorate TParameter None [("inplace", true)] [("p", true); ("q", true)]);
   (* 1297 *) ("Sdc", decorate TParameter None [("inplace", true)] [("p", true); ("q", true)]);
   (* 1317 *) ("Std", None);
   (* 1335 *) ("Ssw", decorate TParameter None [("inplace", true)] []);
   (* 1351 *) ("period", decorate TParameter None [("inplace", true)] []);
   (* 1366 *) ("period_x_y", None);
   (* 1376 *) ("_orientation_refined", None);
   (* 1432 *) ("orientation", decorate TParameter None [("inplace", true)] [("method", true)]);
   (* 1460 *) ("homogeneity", decorate TParameter None [("inplace", true)] [("parameters", true); ("period", true)]);
   (* 1534 *) ("depth", decorate TParameter (Some ["mean"; "std"]) [("inplace", true)] [("nprofiles", true); ("sampling_width", true); ("plot", true)]);
   (* 1632 *) ("aspect_ratio", decorate TParameter None [("inplace", true)] []);
   (* 1643 *) ("plot_autocorrelation", None);
   (* 1672 *) ("plot_fourier_transform", None);
   (* 1712 *) ("plot_angular_power_spectrum", None);
   (* 1715 *) ("plot_2d", None);
   (* 1781 *) ("plot_3d", None);
   (* 1858 *) ("show", None)].
(** base.py:96-596 class BaseTopography *)
Definition topography_class : pyclass :=
  [(* 107 *) ("_set_data", None);
   (* 114 *) ("_with_data", None);
   (* 121 *) ("_repr_png_", None);
   (* 128 *) ("__setitem__", None);
   (* 137 *) ("has_missing_points", None);
   (* 147 *) ("min", None);
   (* 157 *) ("max", None);
   (* 167 *) ("mean", None);
   (* 177 *) ("median", None);
   (* 187 *) ("std", None);
   (* 200 *) ("center", decorate TOperation None [("inplace", true)] [("inplace", true)]);
   (* 221 *) ("zero", decorate TOperation None [("inplace", true)] [("inplace", true)]);
   (* 242 *) ("invert", decorate TOperation None [("inplace", true)] [("inplace", true)]);
   (* 263 *) ("remove_outliers", decorate TOperation None [("inplace", true)] [("n", true); ("method", true); ("inplace", true)]);
   (* 300 *) ("threshold", decorate TOperation None [("inplace", true)] [("threshold", true); ("inplace", true)]);
   (* 340 *) ("filter", decorate TOperation None [("inplace", true)] [("filter_type", false); ("cutoff", false); ("cutoff2", true); ("inplace", true); ("endeffect_mode", true)]);
   (* 410 *) ("get_abbott_firestone_curve", decorate TParameter None [("inplace", true)] []);
   (* 424 *) ("Vmp", decorate TParameter None [("inplace", true)] [("p", true)]);
   (* 440 *) ("Vmc", decorate TParameter None [("inplace", true)] [("p", true); ("q", true)]);
   (* 459 *) ("Vvv", decorate TParameter None [("inplace", true)] [("q", true)]);
   (* 475 *) ("Vvc", decorate TParameter None [("inplace", true)] [("p", true); ("q", true)]);
   (* 494 *) ("Vm", decorate TParameter None [("inplace", true)] [("p", false)]);
   (* 511 *) ("Vv", decorate TParameter None [("inplace", true)] [("p", false)]);
   (* 527 *) ("roughness_parameters", None);
   (* 558 *) ("plot_abbott_curve", None);
   (* 579 *) ("plot_functional_parameter_study", None)].
(** cache.py:42-79 class CachedInstance *)
Definition cached_class : pyclass :=
  [(* 47 *) ("__init__", None);
   (* 50 *) ("clear_cache", None);
   (* 60 *) ("create_cache_entry", None)].
(** Surface.__mro__ without object, none of whose attributes is decorated *)
Definition surface_mro : list pyclass := [surface_class; topography_class; cached_class].
(** batch.py:452-951 class Batch: the names in its body *)
Definition batch_class : list string :=
  ["__init__"; "__len__"; "_create_batch_method"; "from_dir"; "add_files"; "add_dir"; "_disptach_tasks"; "_construct_dataframe"; "_add_step"; "execute"; "extract_from_filename"; "custom_parameter"; "custom_operation"; "roughness_parameters"].
