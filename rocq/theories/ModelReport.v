(** Command line report (surfalize/cli.py:18-44, 51-60, 240-334) and show (157-183), and the values behind the units it prints
    (surface.py, abbottfirestone.py, autocorrelation.py, fourier.py, modelled elsewhere).  The PDF itself, its pictures and fonts are
    not modelled: a report is the rows of its table and the path it is stored under. *)
From Coq Require Import String Reals ZArith Bool List.
From Verif Require Import Base RList ModelBytes ModelFormats ModelGeom ModelDispatch ModelBatch ModelCli ModelHeights ModelParams ModelDetrend ModelAcf ModelFourier ModelAfc.
Import ListNotations.
Local Open Scope string_scope.
Local Open Scope Z_scope.
Local Open Scope list_scope.
Local Open Scope res_scope.

(** cli.py:18-44 PARAMETER_UNITS *)
Definition parameter_units : ModelBatch.dict string :=
  [("Sa", "µm"); ("Sq", "µm"); ("Sv", "µm"); ("Sp", "µm"); ("Sz", "µm"); ("Ssk", ""); ("Sku", ""); ("Sdr", "%"); ("Sdq", "");
   ("Sk", "µm"); ("Spk", "µm"); ("Svk", "µm"); ("Sxp", "µm"); ("Sal", "µm"); ("Str", ""); ("Smr1", "%"); ("Smr2", "%");
   ("Vmp", "µm³/µm²"); ("Vmc", "µm³/µm²"); ("Vvc", "µm³/µm²"); ("Vvv", "µm³/µm²");
   ("Period", "µm"); ("Depth", "µm"); ("Aspect ratio", ""); ("Homogeneity", "")].
(** surface.py:103-108 *)
Definition iso_parameters : list string :=
  ["Sa"; "Sq"; "Sp"; "Sv"; "Sz"; "Ssk"; "Sku"; "Sdr"; "Sdq"; "Sal"; "Str"; "Ssw"; "Sk"; "Spk"; "Svk"; "Spkx"; "Svkx"; "Sak1"; "Sak2";
   "Smr1"; "Smr2"; "Sxp"; "Sdc"; "Vmp"; "Vmc"; "Vvv"; "Vvc"].
(** surface.py:103-108 with base.py:527-554: the names roughness_parameters computes by default *)
Definition available_parameters : list string :=
  iso_parameters ++ ["period"; "depth"; "aspect_ratio"; "homogeneity"; "stepheight"; "cavity_volume"].

(** f'{v:.3f}' of a number (None: NaN); infinities are not modelled *)
Definition fixed3 (q : Z) : pystr := dec (q / 1000) ++ [46; 48 + q mod 1000 / 100; 48 + q mod 100 / 10; 48 + q mod 10].
(** f'{v:.3f}', cli.py:307-327 *)
Definition fmt3 (v : option R) : pystr :=
  match v with
  | None => str "nan"
  | Some x => (if Rlt_dec x 0 then [45] else []) ++ fixed3 (pyround (1000 * Rabs x))
  end.

(** one row of the table: a title over the whole width, or name, value and unit *)
Inductive row := Title (text : string) | Value (name : string) (text : pystr) (unit : string).
(** cli.py:307-315 group, 319-327: data[p] and PARAMETER_UNITS[p] raise KeyError *)
Definition value_row (data : ModelBatch.dict (option R)) (p : string) : res row :=
  match dget p data with
  | None => Err KeyError
  | Some v => match dget p parameter_units with None => Err KeyError | Some u => Ok (Value p (fmt3 v) u) end
  end.
(** the rows of one group of the report, cli.py:307-327 *)
Fixpoint value_rows (data : ModelBatch.dict (option R)) (ps : list string) : res (list row) :=
  match ps with
  | [] => Ok []
  | p :: ps' => do r <- value_row data p; do rs <- value_rows data ps'; Ok (r :: rs)
  end.
(** cli.py:302-327 *)
Definition report_table (data : ModelBatch.dict (option R)) (periodic : option (ModelBatch.dict (option R))) : res (list row) :=
  do spatial <- value_rows data ["Sa"; "Sq"; "Sv"; "Sp"; "Sz"];
  do functional <- value_rows data ["Sk"; "Spk"; "Svk"];
  do per <- match periodic with
            | None => Ok []
            | Some d => do rs <- value_rows d (map fst d); Ok (Title "Periodic" :: rs)
            end;
  Ok (Title "ISO 25178" :: Title "Spatial" :: spatial ++ Title "Functional" :: functional ++ per).

Section Report.
Context {St Num : Type}.
(** Surface.load(file), the operations of ModelCli, the two pictures (which may fail), getattr(surface, name)() without its effect on
    the cache, and depth()[0] *)
Variables (load : pystr -> res St) (run : scall Num -> St -> res St) (pictures : St -> res unit).
Variables (call : string -> St -> res (option R)) (depth0 : St -> res (option R)).
(** cli.py:287-293, in the order of evaluation *)
Definition periodic_data (s : St) : res (ModelBatch.dict (option R)) :=
  do p <- call "period" s; do d <- depth0 s; do a <- call "aspect_ratio" s; do h <- call "homogeneity" s;
  Ok [("Period", p); ("Depth", d); ("Aspect ratio", a); ("Homogeneity", h)].
(** pathlib: with_suffix on a path in normal form *)
Definition with_suffix (p s : pystr) : pystr := firstn (length p - length (path_suffix p)) p ++ s.
(** cli.py:329 *)
Definition report_output (file : pystr) : pystr := with_suffix file (path_suffix file ++ str ".pdf").
(** cli.py:262-330 for one file: where the report is stored and what its table says *)
Definition report_one (o : opts Num) (periodic : bool) (file : pystr) : res (pystr * list row) :=
  do s0 <- load file;
  do s <- perform_surface_operations run o s0;
  do _ <- pictures s;
  do data <- fst (roughness_parameters (fun p s => (call p s, s)) available_parameters iso_parameters None s);
  do per <- (if periodic then rmap Some (periodic_data s) else Ok None);
  do rows <- report_table data per;
  Ok (report_output file, rows).
(** cli.py:262-334: the reports written before the first failure, and the failure *)
Fixpoint report_loop (o : opts Num) (periodic : bool) (files : list pystr) : list (pystr * list row) * res unit :=
  match files with
  | [] => ([], Ok tt)
  | f :: fs => match report_one o periodic f with
               | Ok r => let '(rs, e) := report_loop o periodic fs in (r :: rs, e)
               | Err e => ([], Err e)
               end
  end.
(** cli.py:253-260; the order of the extensions is that of a set and therefore a parameter *)
Definition report_files (exts : list pystr) (inp : input) : list pystr :=
  match inp with
  | InFile p => [p]
  | InDir p entries => map (join p) (from_dir (map fst entries) exts)
  end.
(** the command with its options: cli.py:124-135 rejects them before anything is read *)
Definition report (exts : list pystr) (inp : input) (args : list (occurrence Num)) (periodic : bool) : list (pystr * list row) * res unit :=
  let o := parse_options args in
  if Nat.ltb 1 (count_given o) then ([], Err bad_parameter)
  else if o_zero o && o_center o then ([], Err bad_parameter)
  else report_loop o periodic (report_files exts inp).

(** *** cli.py:157-183 show: what appears on the screen *)
Inductive shown := Shown3D (s : St) | Shown2D (s : St) | Hint.        (* Hint: no interactive backend *)
Definition show (file : pystr) (args : list (occurrence Num)) (plot_3d interactive : bool) : res shown :=
  do s <- command run args (load file);
  Ok (if plot_3d then Shown3D s else if interactive then Shown2D s else Hint).
End Report.

(** *** The values behind the names, for a surface of heights and steps in micrometres *)
Section Values.
Local Open Scope R_scope.
(** a surface in micrometres: heights and steps (surface.py:110-123) *)
Record measured_surface := mkMS { ms_data : grid; ms_sx : R; ms_sy : R }.
(** numerical routines taken by contract: np.polyfit, the two sorts, the spline interpolation and the labelling of ndimage *)
Variables (polyfit : lsq_solver) (ord : sorter) (argsort : list R -> list nat)
  (spline : matrix -> R -> R -> R) (label : (nat -> nat -> bool) -> nat -> nat -> nat) (nbins : nat).
(** no_nonmeasured_points, base.py:17-39 *)
Definition complete {A} (s : measured_surface) (x : res A) : res A := if has_missing (ms_data s) then Err ValueError else x.
(** a height parameter (surface.py:868-972) as a value of the report *)
Definition of_heights (f : hparams -> option R) (s : measured_surface) : res (option R) :=
  complete s (rmap f (height_parameters (concat (matrix_of (ms_data s))))).
(** a parameter of the material ratio curve (surface.py:1118-1315, base.py:409-524) as a value of the report *)
Definition of_curve (f : afc -> option R) (s : measured_surface) : res (option R) :=
  rmap f (afc_init polyfit nbins (concat (ms_data s))).
(** the methods with their default arguments: surface.py:1015-1040, 1069-1114, 1118-1294, base.py:423-491; None: not modelled as a
    function of the heights (depth, aspect ratio, homogeneity) *)
Definition value_of (name : string) (s : measured_surface) : option (res (option R)) :=
  let g := matrix_of (ms_data s) in
  let ny := nrows (ms_data s) in let nx := ncols (ms_data s) in
  dget name
   [("Sa", of_heights (fun h => Some (Sa h)) s); ("Sq", of_heights (fun h => Some (Sq h)) s); ("Sv", of_heights (fun h => Some (Sv h)) s);
    ("Sp", of_heights (fun h => Some (Sp h)) s); ("Sz", of_heights (fun h => Some (Sz h)) s);
    ("Ssk", of_heights Ssk s); ("Sku", of_heights Sku s);
    ("Sdr", complete s (Ok (Sdr g ny nx (ms_sx s) (ms_sy s)))); ("Sdq", complete s (Ok (Some (Sdq g ny nx (ms_sx s) (ms_sy s)))));
    ("Sk", of_curve (fun a => Some (afc_k a)) s); ("Spk", of_curve (pk ord) s); ("Svk", of_curve (vk ord) s);
    ("Sxp", of_curve (fun a => Some (sxp a (5 / 2) 50)) s);
    ("Sal", do d <- acf_new (ms_data s); rmap Some (Sal spline label d (ms_sx s) (ms_sy s) (1 / 5)));
    ("Str", do d <- acf_new (ms_data s); Str spline label d (ms_sx s) (ms_sy s) (1 / 5));
    ("Smr1", of_curve (fun a => Some (mr1 ord a)) s); ("Smr2", of_curve (fun a => Some (mr2 ord a)) s);
    ("Vmp", of_curve (fun a => Some (vmp a 10)) s); ("Vmc", of_curve (fun a => Some (vmc a 10 80)) s);
    ("Vvc", of_curve (fun a => Some (vvc a 10 80)) s); ("Vvv", of_curve (fun a => Some (vvv a 80)) s);
    ("Period", period (ms_data s) (ms_sx s) (ms_sy s) argsort)].
End Values.
