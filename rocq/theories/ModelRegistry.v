(** How the tables of readers and writers come about: surfalize/file/common.py:383-455 (FileHandler.register_reader, register_writer,
    get_supported_formats_read/write, get_reader_suffix_groups) and the import loop surfalize/file/__init__.py:4-14.  ModelDispatch has the
    finished tables as constants; PropsRegistry shows that the decorators build exactly these. *)
From Coq Require Import String ZArith Bool.
From Coq Require Import List.
From Verif Require Import Base ModelBytes ModelDispatch.
Import ListNotations.
Local Open Scope list_scope.

Section Registry.
Context {F : Type}.
(** the argument suffix or magic: one value or something list-like (utils.is_list_like, utils.py:45-58) *)
Inductive spec := One (k : list Z) | Many (ks : list (list Z)).
(** file/common.py:421-450: is_list_like decides between one key and several *)
Definition keys (s : spec) : list (list Z) := match s with One k => [k] | Many ks => ks end.
(** @FileHandler.register_reader(suffix=..., magic=...) or @FileHandler.register_writer(suffix=...) on a function *)
Inductive decl := Reader (suffix : spec) (magic : option spec) (f : F) | Writer (suffix : spec) (f : F).
(** cls._readers_by_suffix, cls._readers_by_magic, cls._writers: dictionaries in insertion order *)
Record registry := mkReg { by_suffix : list (list Z * F); by_magic : list (list Z * F); by_writer : list (list Z * F) }.
(** the class attributes before any module is imported, file/common.py:383-388 *)
Definition empty : registry := mkReg [] [] [].
(** d[k] = v *)
Fixpoint put (k : list Z) (v : F) (d : list (list Z * F)) : list (list Z * F) :=
  match d with
  | [] => [(k, v)]
  | (k', v') :: d' => if zs_eqb k k' then (k', v) :: d' else (k', v') :: put k v d'
  end.
(** the loop over the suffixes or magics, file/common.py:421-450 *)
Definition put_all (ks : list (list Z)) (v : F) (d : list (list Z * F)) : list (list Z * F) := fold_left (fun d k => put k v d) ks d.
(** common.py:420-450 *)
Definition register (r : registry) (d : decl) : registry :=
  match d with
  | Reader s m f => mkReg (put_all (keys s) f (by_suffix r)) (match m with None => by_magic r | Some m => put_all (keys m) f (by_magic r) end) (by_writer r)
  | Writer s f => mkReg (by_suffix r) (by_magic r) (put_all (keys s) f (by_writer r))
  end.
(** importing the modules of file/__init__.py:4-8 one after the other *)
Definition register_all (ds : list decl) : registry := fold_left register ds empty.
(** common.py:423, the attribute _suffix of a reader function: what it was registered with last *)
Definition attr_suffix (feqb : F -> F -> bool) (ds : list decl) (f : F) : option spec :=
  fold_left (fun a d => match d with Reader s _ g => if feqb f g then Some s else a | Writer _ _ => a end) ds None.
(** common.py:395-401 *)
Definition supported_read (r : registry) : list (list Z) := map fst (by_suffix r).
(** file/common.py:399-401 (get_supported_formats_write) *)
Definition supported_write (r : registry) : list (list Z) := map fst (by_writer r).
(** groups.setdefault(reader, []).append(suffix) *)
Fixpoint add_to (feqb : F -> F -> bool) (f : F) (s : list Z) (g : list (F * list (list Z))) : list (F * list (list Z)) :=
  match g with
  | [] => [(f, [s])]
  | (f', l) :: g' => if feqb f f' then (f', l ++ [s]) :: g' else (f', l) :: add_to feqb f s g'
  end.
(** str comparison: lexicographic by code point *)
Fixpoint str_leb (a b : list Z) : bool :=
  match a, b with
  | [], _ => true
  | _ :: _, [] => false
  | x :: a', y :: b' => if (x <? y)%Z then true else if (y <? x)%Z then false else str_leb a' b'
  end.
(** inserting into an ascending list (helper of sorted) *)
Fixpoint insert_str (s : list Z) (l : list (list Z)) : list (list Z) :=
  match l with [] => [s] | t :: l' => if str_leb s t then s :: t :: l' else t :: insert_str s l' end.
(** sorted(...) of strings, file/common.py:403-418 *)
Definition sort_str (l : list (list Z)) : list (list Z) := fold_right insert_str [] l.
(** common.py:403-418 get_reader_suffix_groups *)
Definition suffix_groups (feqb : F -> F -> bool) (table : list (list Z * F)) : list (list (list Z)) :=
  map (fun g => sort_str (snd g)) (fold_left (fun g p => add_to feqb (snd p) (fst p) g) table []).
End Registry.
Arguments spec : clear implicits.
Arguments decl : clear implicits.
Arguments registry : clear implicits.

(** The decorators of surfalize/file in the order in which the modules are imported (pkgutil.iter_modules: by name; no module imports
    another format's module), and within a module in the order of the text.  A reader and a writer of the same format have the same name here;
    they are only ever looked up in different tables. *)
Definition declarations : list (decl format) :=
  [ Writer (One (str ".al3d")) Al3d                                                              (* al3d.py:23 *)
  ; Reader (One (str ".al3d")) (Some (One (str "AliconaImaging" ++ [0; 13; 10]%Z))) Al3d         (* al3d.py:6, 47 *)
  ; Reader (One (str ".dat")) (Some (Many [[136; 27; 3; 111]%Z; [136; 27; 3; 112]%Z; [136; 27; 3; 113]%Z])) Dat   (* dat.py:8-10, 255 *)
  ; Reader (Many [str ".fits"; str ".fit"; str ".fts"]) (Some (One (str "SIMPLE"))) Fits         (* fits.py:5, 72 *)
  ; Reader (One (str ".gwy")) (Some (One (str "GWYP"))) Gwy                                      (* gwy.py:8, 215 *)
  ; Reader (One (str ".nms")) None Nms                                                           (* nms.py:17 *)
  ; Reader (One (str ".opd")) (Some (One ([1; 0]%Z ++ str "Directory"))) Opd                     (* opd.py:10, 85 *)
  ; Reader (One (str ".os3d")) (Some (One (str "OmniSurf3D"))) Os3d                              (* os3d.py:11, 30 *)
  ; Reader (One (str ".plu")) None Plu                                                           (* plu.py:47 *)
  ; Reader (One (str ".plux")) None Plux                                                         (* plux.py:12 *)
  ; Reader (One (str ".sdf")) (Some (Many [str "aISO-1.0"; str "bISO-1.0"])) Sdf                 (* sdf.py:9-10, 128 *)
  ; Writer (One (str ".sdf")) Sdf                                                                (* sdf.py:138 *)
  ; Reader (One (str ".sflz")) (Some (One (str "SFLZ"))) Sflz                                    (* sflz.py:6, 63 *)
  ; Writer (One (str ".sflz")) Sflz                                                              (* sflz.py:95 *)
  ; Reader (One (str ".sur")) (Some (Many [str "DIGITAL SURF"; str "DSCOMPRESSED"])) Sur         (* sur.py:14-15, 326 *)
  ; Writer (One (str ".sur")) Sur                                                                (* sur.py:358 *)
  ; Reader (One (str ".tmd")) (Some (One (str "Binary TrueMap Data File v2.0"))) Tmd             (* tmd.py:4, 21 *)
  ; Writer (One (str ".tmd")) Tmd                                                                (* tmd.py:37 *)
  ; Reader (One (str ".vk4")) (Some (One (str "VK4_"))) Vk4                                      (* vk.py:158 *)
  ; Reader (Many [str ".vk6"; str ".vk7"]) (Some (Many [str "VK6"; str "VK7"])) Vk67             (* vk.py:192 *)
  ; Reader (One (str ".x3p")) (Some (One (str "PK" ++ [3; 4; 20]%Z))) X3p                        (* x3p.py:12, 32 *)
  ; Reader (One (str ".xyz")) None Xyz                                                           (* xyz.py:7 *)
  ; Reader (One (str ".zmg")) (Some (One (str "Zeta-Instruments"))) Zmg ].                       (* zmg.py:5, 20 *)
