(** The method tables of Surface and Profile: which methods exist, how they are decorated
    (in the order of the decorators in the source) and which other methods of the object they call.
    The numerical content of each body is an arbitrary function [num name] of the observable state,
    the arguments and the results of the inner calls (uninterpreted here; the numeric models are in
    ModelHeights.v, ModelParams.v, ModelAfc.v, ...).
    surfalize/surface.py, surfalize/profile.py, surfalize/base.py; lines cited per entry. *)
From Coq Require Import String List Bool ZArith.
From Verif Require Import Base ModelCache.
Import ListNotations.
Open Scope string_scope.

Section Api.
Variables (H T V A : Type).
Variable missing : H -> bool.
(** Numerical content of a body; may raise. *)
Variable num : string -> obs H T -> call A -> list V -> res V.
(** Selection of an argument by name, with its default (e.g. p=2.5). *)
Variable arg : string -> call A -> A.
(** Boolean conditions on arguments: [flag "homogeneity:period is None" c] etc. *)
Variable flag : string -> call A -> bool.
(** Boolean conditions that also look at the object (shape checks). *)
Variable oflag : string -> obs H T -> call A -> bool.
(** Python values 'fft', used in self.orientation(method='fft'). *)
Variable v_fft : A.

Notation prog := (prog H T V A V).
Notation meth := (meth H T V A).

(** the call self.name() (how the methods listed below call each other: surface.py:868-1640) *)
Definition self0 (name : string) : call A := mkCall name [] [].

(** Return the numerical content of the body, given the results of inner calls. *)
Definition fin (name : string) (c : call A) (vs : list V) : prog :=
  Look (fun o => match num name o c vs with Ok v => Ret v | Err e => Raise e end).
(** a method body that calls no other method of the object, such as surface.py:974-984 (projected_area) *)
Definition leaf (name : string) (c : call A) : prog := fin name c [].
(** Constructors of the helper objects check for missing points themselves:
    abbottfirestone.py:28-30, autocorrelation.py:24-26, fourier.py:21-23. *)
Definition leaf_checked (name : string) (c : call A) : prog :=
  Look (fun o => if missing (o_data o) then Raise ValueError else leaf name c).
(** a method body that asks one other method and computes from its result, such as surface.py:894-903 (Sa) *)
Definition via (inner : string) (name : string) (c : call A) : prog :=
  Call (self0 inner) (fun v => fin name c [v]).

(** a method with its decorators, outermost first (cache.py:3-40, base.py:17-39) *)
Definition m (ds : list deco) (p : call A -> prog) (c : call A) : meth := mkMeth ds (p c).

(** base.py:409-421 *)
Definition afc := "get_abbott_firestone_curve".
(** surface.py:1044-1055 *)
Definition acf := "get_autocorrelation_function".
(** surface.py:1057-1068 *)
Definition ft := "get_fourier_transform".

(** base.py:406-524 *)
Definition base_table : list (string * (call A -> meth)) :=
  [ (afc, m [Cached] (leaf_checked afc));                                   (* base.py:408-420 *)
    ("Vmp", m [] (via afc "Vmp")); ("Vmc", m [] (via afc "Vmc"));          (* base.py:423-456 *)
    ("Vvv", m [] (via afc "Vvv")); ("Vvc", m [] (via afc "Vvc"));          (* base.py:458-491 *)
    ("Vm", m [] (via afc "Vm")); ("Vv", m [] (via afc "Vv")) ].            (* base.py:493-524 *)

Definition surface_table : list (string * (call A -> meth)) :=
  base_table ++
  [ ("_stepheight_get_mask", m [Cached] (leaf "_stepheight_get_mask"));     (* surface.py:753-768 *)
    ("_stepheight_get_upper_lower_median",                                  (* surface.py:813-827 *)
       m [Cached] (via "_stepheight_get_mask" "_stepheight_get_upper_lower_median"));
    ("stepheight", m [Cached] (via "_stepheight_get_upper_lower_median" "stepheight")); (* 829-841 *)
    ("cavity_volume", m [] (fun c =>                                        (* surface.py:843-862 *)
       Call (self0 "_stepheight_get_upper_lower_median") (fun v1 =>
       Call (self0 "stepheight") (fun v2 => fin "cavity_volume" c [v1; v2]))));
    ("height_parameters", m [Cached; Guarded] (leaf "height_parameters"));  (* surface.py:868-892 *)
    ("Sa", m [] (via "height_parameters" "Sa"));                            (* surface.py:894-970 *)
    ("Sq", m [] (via "height_parameters" "Sq"));
    ("Sp", m [] (via "height_parameters" "Sp"));
    ("Sv", m [] (via "height_parameters" "Sv"));
    ("Sz", m [] (via "height_parameters" "Sz"));
    ("Ssk", m [] (via "height_parameters" "Ssk"));
    ("Sku", m [] (via "height_parameters" "Sku"));
    ("projected_area", m [Cached] (leaf "projected_area"));                 (* surface.py:974-984 *)
    ("surface_area", m [Guarded; Cached] (leaf "surface_area"));            (* surface.py:986-1013 *)
    ("Sdr", m [] (fun c => Call (self0 "surface_area") (fun v1 =>           (* surface.py:1015-1024 *)
                           Call (self0 "projected_area") (fun v2 => fin "Sdr" c [v1; v2]))));
    ("Sdq", m [Guarded; Cached] (leaf "Sdq"));                              (* surface.py:1026-1040 *)
    (acf, m [Cached] (leaf_checked acf));                                   (* surface.py:1043-1054 *)
    (ft, m [Cached] (leaf_checked ft));                                     (* surface.py:1056-1067 *)
    ("Sal", m [Cached] (via acf "Sal"));                                    (* surface.py:1069-1090 *)
    ("Str", m [Cached] (via acf "Str"));                                    (* surface.py:1092-1114 *)
    ("Sk", m [] (via afc "Sk")); ("Spk", m [] (via afc "Spk"));             (* surface.py:1118-1138 *)
    ("Svk", m [] (via afc "Svk")); ("Spkx", m [] (via afc "Spkx"));         (* surface.py:1140-1161 *)
    ("Svkx", m [] (via afc "Svkx")); ("Sak1", m [] (via afc "Sak1"));       (* surface.py:1163-1185 *)
    ("Sak2", m [] (via afc "Sak2"));                                        (* surface.py:1187-1197 *)
    ("Smr1", m [] (via afc "Smr1")); ("Smr2", m [] (via afc "Smr2"));       (* surface.py:1199-1219 *)
    ("Smrk1", m [] (via "Smr1" "Smrk1")); ("Smrk2", m [] (via "Smr2" "Smrk2")); (* 1221-1243 *)
    ("Smr", m [] (via afc "Smr")); ("Smc", m [] (via afc "Smc"));           (* surface.py:1245-1275 *)
    ("Sxp", m [] (fun c => Call (mkCall "Smc" [arg "p" c] []) (fun v1 =>    (* surface.py:1277-1294 *)
                           Call (mkCall "Smc" [arg "q" c] []) (fun v2 => fin "Sxp" c [v1; v2]))));
    ("Sdc", m [] (via afc "Sdc"));                                          (* surface.py:1296-1313 *)
    ("Std", m [] (via ft "Std"));                                           (* surface.py:1317-1331 *)
    ("Ssw", m [Guarded] (via ft "Ssw"));                                    (* surface.py:1333-1344 *)
    ("period", m [Cached; Guarded] (via ft "period"));                      (* surface.py:1348-1362 *)
    ("period_x_y", m [Cached; Guarded] (via ft "period_x_y"));              (* surface.py:1364-1374 *)
    ("_orientation_refined", m [] (via "period_x_y" "_orientation_refined")); (* surface.py:1376-1427 *)
    ("orientation", m [Cached; Guarded] (fun c =>                           (* surface.py:1429-1455 *)
       if flag "orientation:method == fft_refined" c then
         Call (self0 "_orientation_refined") (fun v => Ret v)
       else if flag "orientation:method == fft" c then via ft "orientation" c
       else Raise ValueError));
    ("homogeneity", m [Guarded; Cached] (fun c =>                           (* surface.py:1457-1529 *)
       if flag "homogeneity:disallowed" c then Raise ValueError
       else if flag "homogeneity:period is None" c then via "period" "homogeneity" c
       else leaf "homogeneity" c));
    ("depth", m [Cached; Guarded] (fun c =>                                 (* surface.py:1531-1628 *)
       Call (mkCall "orientation" [] [("method", v_fft)]) (fun v1 =>
       Look (fun o => if oflag "depth:nprofiles exceeds size" o c then Raise ValueError else
       Call (self0 "period_x_y") (fun v2 => fin "depth" c [v1; v2])))));
    ("aspect_ratio", m [Cached] (fun c =>                                   (* surface.py:1630-1640 *)
       Call (self0 "depth") (fun v1 => Call (self0 "period") (fun v2 => fin "aspect_ratio" c [v1; v2]))))
  ].

(** the public methods of Profile with their decorators: profile.py:274-627 and base.py:406-524 *)
Definition profile_table : list (string * (call A -> meth)) :=
  base_table ++
  [ ("period", m [Cached; Guarded] (leaf "period"));                        (* profile.py:273-284 *)
    ("Ra", m [Cached; Guarded] (leaf "Ra"));                                (* profile.py:309-319 *)
    ("Rq", m [Cached; Guarded] (leaf "Rq"));                                (* profile.py:321-331 *)
    ("Rp", m [Cached; Guarded] (leaf "Rp"));                                (* profile.py:333-351 *)
    ("Rv", m [Cached; Guarded] (leaf "Rv"));                                (* profile.py:353-371 *)
    ("Rz", m [Cached; Guarded] (leaf "Rz"));                                (* profile.py:373-392 *)
    ("Rt", m [Cached; Guarded] (leaf "Rt"));                                (* profile.py:394-405 *)
    ("Rsk", m [Cached; Guarded] (via "Rq" "Rsk"));                          (* profile.py:407-418 *)
    ("Rku", m [Cached; Guarded] (via "Rq" "Rku"));                          (* profile.py:420-431 *)
    ("Rdq", m [Cached; Guarded] (leaf "Rdq"));                              (* profile.py:435-445 *)
    ("Rk", m [] (via afc "Rk")); ("Rpk", m [] (via afc "Rpk"));             (* profile.py:449-467 *)
    ("Rvk", m [] (via afc "Rvk")); ("Rpkx", m [] (via afc "Rpkx"));         (* profile.py:469-488 *)
    ("Rvkx", m [] (via afc "Rvkx")); ("Rak1", m [] (via afc "Rak1"));       (* profile.py:490-510 *)
    ("Rak2", m [] (via afc "Rak2"));                                        (* profile.py:512-521 *)
    ("Rmr1", m [] (via afc "Rmr1")); ("Rmr2", m [] (via afc "Rmr2"));       (* profile.py:523-541 *)
    ("Rmrk1", m [] (via "Rmr1" "Rmrk1")); ("Rmrk2", m [] (via "Rmr2" "Rmrk2")); (* profile.py:543-561 *)
    ("Rmr", m [] (via afc "Rmr")); ("Rmc", m [] (via afc "Rmc"));           (* profile.py:563-591 *)
    ("Rxp", m [] (fun c => Call (mkCall "Rmc" [arg "p" c] []) (fun v1 =>    (* profile.py:593-608 *)
                           Call (mkCall "Rmc" [arg "q" c] []) (fun v2 => fin "Rxp" c [v1; v2]))));
    ("Rdc", m [] (via afc "Rdc")) ].                                        (* profile.py:610-626 *)

Fixpoint assoc {X} (k : string) (l : list (string * X)) : option X :=
  match l with [] => None | (k', x) :: l' => if String.eqb k k' then Some x else assoc k l' end.

(** looking a method up on the class (Python attribute lookup of surface.py:33, profile.py:9) *)
Definition methods_of (tbl : list (string * (call A -> meth))) (c : call A) : option meth :=
  match assoc (c_name c) tbl with Some f => Some (f c) | None => None end.
(** the methods of Surface, surface.py:33-1640 *)
Definition surface_methods := methods_of surface_table.
(** the methods of Profile, profile.py:9-627 *)
Definition profile_methods := methods_of profile_table.

(** Methods documented to need complete data (directly or through what they call). *)
Definition base_complete : list string := [afc; "Vmp"; "Vmc"; "Vvv"; "Vvc"; "Vm"; "Vv"].
(** the methods of surface.py that need complete data: they are decorated with no_nonmeasured_points (base.py:17-39) or call one that is *)
Definition surface_complete : list string := base_complete ++
  ["height_parameters"; "Sa"; "Sq"; "Sp"; "Sv"; "Sz"; "Ssk"; "Sku"; "surface_area"; "Sdr"; "Sdq"; acf; ft;
   "Sal"; "Str"; "Sk"; "Spk"; "Svk"; "Spkx"; "Svkx"; "Sak1"; "Sak2"; "Smr1"; "Smr2"; "Smrk1"; "Smrk2"; "Smr";
   "Smc"; "Sxp"; "Sdc"; "Std"; "Ssw"; "period"; "period_x_y"; "_orientation_refined"; "orientation";
   "homogeneity"; "depth"; "aspect_ratio"].
(** the methods of profile.py that need complete data: decorated with no_nonmeasured_points (base.py:17-39) or calling one that is *)
Definition profile_complete : list string := base_complete ++
  ["period"; "Ra"; "Rq"; "Rp"; "Rv"; "Rz"; "Rt"; "Rsk"; "Rku"; "Rdq"; "Rk"; "Rpk"; "Rvk"; "Rpkx"; "Rvkx";
   "Rak1"; "Rak2"; "Rmr1"; "Rmr2"; "Rmrk1"; "Rmrk2"; "Rmr"; "Rmc"; "Rxp"; "Rdc"].

(** *** Operations as bodies producing new heights (and steps). *)
Variable opnum : string -> obs H T -> call A -> list V -> res (H * option T * option T).

(** the end of an operation: the new heights and steps handed to _set_data, base.py:107-112, surface.py:170-196 *)
Definition opfin (name : string) (c : call A) (vs : list V) : ModelCache.prog H T V A (opresult H T) :=
  Look (fun o => match opnum name o c vs with Ok x => Ret (Some x) | Err e => Raise e end).

(** center/zero/invert/remove_outliers/threshold (base.py:199-336), zoom/crop (surface.py:662-720),
    level/detrend_polynomial (surface.py:524-606): no guard, no inner method call. *)
Definition simple_op (name : string) (c : call A) : oper H T V A := mkOper false (opfin name c []).
(** filter (base.py:338-404), rotate (surface.py:608-660): guarded. *)
Definition guarded_op (name : string) (c : call A) : oper H T V A := mkOper true (opfin name c []).
(** fill_nonmeasured (surface.py:491-522): returns early when nothing is missing. *)
Definition fill_op (c : call A) : oper H T V A :=
  mkOper false (Look (fun o => if missing (o_data o) then opfin "fill_nonmeasured" c [] else Ret None)).
(** align (surface.py:722-749): axis check, orientation (cached), then the guarded rotate. *)
Definition align_op (c : call A) : oper H T V A :=
  mkOper false (if flag "align:invalid axis" c then Raise ValueError else
    Call (mkCall "orientation" [] [("method", arg "method" c)]) (fun angle =>
      Look (fun o => if missing (o_data o) then Raise ValueError else opfin "rotate" c [angle]))).
End Api.
