(** The result table of a batch: FilenameParser.extract_from/apply_on (surfalize/batch.py:155-208), BatchResult (211-272),
    Batch._construct_dataframe (725-744), Batch.execute (767-812) and Batch.extract_from_filename (814-845).
    A DataFrame is the list of its columns, each with its name and the values of its rows; values are of an arbitrary type [V].
    Column names are distinct (pandas tables with repeated column names are outside the model). *)
From Coq Require Import String ZArith Bool.
From Coq Require Import List.
From Verif Require Import Base ModelBytes ModelUnits ModelSur ModelFormats ModelTemplate ModelBatch.
Import ListNotations.
Local Open Scope Z_scope.

Section Table.
Context {V : Type}.
Variable text : V -> option pystr.        (* the value as a str, if it is one *)
Variable of_cell : cellv -> V.            (* the values stored by astype *)
Variable blank : V.                       (* '' *)

Definition frame := list (pystr * list V).
(** df.columns, batch.py:155-208 *)
Definition names (f : frame) : list pystr := map fst f.
(** df[c] *)
Fixpoint fget (c : pystr) (f : frame) : option (list V) :=
  match f with [] => None | (k, v) :: f' => if zs_eqb c k then Some v else fget c f' end.
(** df[c] = v: in place, or as a new last column *)
Fixpoint fset (c : pystr) (v : list V) (f : frame) : frame :=
  match f with
  | [] => [(c, v)]
  | (k, w) :: f' => if zs_eqb c k then (k, v) :: f' else (k, w) :: fset c v f'
  end.
(** df.columns.get_loc(c) *)
Fixpoint get_loc (c : pystr) (f : frame) : option nat :=
  match f with [] => None | (k, _) :: f' => if zs_eqb c k then Some O else option_map S (get_loc c f') end.
(** df.insert(i, c, v) *)
Definition insert (i : nat) (c : pystr) (v : list V) (f : frame) : frame := firstn i f ++ (c, v) :: skipn i f.

(** batch.py:155-177 extract_from: every token is a column; its values are converted row by row, and the first row that cannot be
    converted raises.  Simplification: a cell that is not a str does not match (pandas gives NaN for it; a column without any
    str is an AttributeError there).  [None]: the template is outside the modelled fragment of re (ModelTemplate.v). *)
Definition extract_from (template column : pystr) (f : frame) : option (res (list (pystr * list cellv))) :=
  match parse_template template with
  | Err e => Some (Err e)
  | Ok (tokens, seps) =>
    match construct_regex tokens seps with
    | Err e => Some (Err e)
    | Ok re =>
      match fget column f with
      | None => Some (Err KeyError)
      | Some cells =>
        match compile (S (length re)) re with
        | None => None
        | Some items =>
          let ns := map t_name tokens in
          if negb (forallb identifier ns && distinct ns) then Some (Err re_error)
          else if Nat.eqb (length tokens) 0 then Some (Err ValueError)
          else let found := map (fun v => match text v with Some s => research items s | None => None end) cells in
               Some (rmapl (fun t => rbind (kind_of (t_dtype t)) (fun k =>
                             rmap (pair (t_name t)) (rmapl (fun g => convert_cell k (group_text g (t_name t))) found))) tokens)
        end
      end
    end
  end.
(** batch.py:200-207: the new columns are inserted from the last to the first; [rows] is the number of rows of the blank column *)
Definition insert_all (i rows : nat) (cols : list pystr) (f : frame) : frame :=
  fold_left (fun f c => if existsb (zs_eqb c) (names f) then f else insert i c (repeat blank rows) f) (rev cols) f.
(** batch.py:208 df.assign( **extracted ): a column called self collides with the method's own parameter *)
Definition assign (cols : list (pystr * list V)) (f : frame) : res frame :=
  if existsb (zs_eqb (str "self")) (map fst cols) then Err TypeError
  else Ok (fold_left (fun f p => fset (fst p) (snd p) f) cols f).
(** batch.py:179-208 apply_on *)
Definition apply_on (template column : pystr) (after : bool) (f : frame) : option (res frame) :=
  option_map (fun r => rbind r (fun extracted =>
    let cols := map (fun p => (fst p, map of_cell (snd p))) extracted in
    let f' := if after then match get_loc column f, fget column f with
                            | Some i, Some cells => insert_all (S i) (length cells) (map fst extracted) f
                            | _, _ => f
                            end else f in
    assign cols f')) (extract_from template column f).

(** *** batch.py:725-744 _construct_dataframe *)
(** a table of ModelBatch.v (columns and rows) as a DataFrame *)
Definition to_frame (nan : V) (cols : list string) (rows : list (dict V)) : frame :=
  map (fun c => (str c, map (fun r => cell nan r c) rows)) cols.
(** the columns of pd.merge(additional, df, on='file'), see merge_rows in ModelBatch.v *)
Definition merge_columns (left_ right_ : list string) : list string :=
  map (fun c => if String.eqb c "file" then c else renamed (others right_) "_x" c) left_ ++ map (renamed (others left_) "_y") (others right_).
(** the columns of _construct_dataframe before the file names are parsed, batch.py:725-740 *)
Definition table_frame (veqb : V -> V -> bool) (nan : V) (additional : option (list string * list (dict V))) (results : list (dict V)) : res frame :=
  match additional with
  | None => Ok (to_frame nan (columns results) (snd (dataframe nan results)))
  | Some a => rmap (to_frame nan (merge_columns (fst a) (columns results))) (construct_dataframe veqb nan additional results)
  end.
(** _construct_dataframe, batch.py:725-744 *)
Definition result_frame (veqb : V -> V -> bool) (nan : V) (additional : option (list string * list (dict V))) (pattern : option pystr)
    (results : list (dict V)) : option (res frame) :=
  match table_frame veqb nan additional results with
  | Err e => Some (Err e)
  | Ok f => match pattern with None => Some (Ok f) | Some p => apply_on p (str "file") true f end
  end.
(** batch.py:804-812: what execute returns for the list of results (or the exception) of the dispatched tasks, and the table that
    to_excel writes *)
Definition finish (veqb : V -> V -> bool) (nan : V) (additional : option (list string * list (dict V))) (pattern : option pystr) (save : bool)
    (r : res (list (dict V))) : option (res frame * option frame) :=
  match r with
  | Err e => Some (Err e, None)
  | Ok results => option_map (fun t => (t, match t with Ok f => if save then Some f else None | Err _ => None end))
                    (result_frame veqb nan additional pattern results)
  end.
End Table.
Arguments frame : clear implicits.

(** *** batch.py:223-272 BatchResult over a heap of DataFrames.  Addresses are numbers; the frames the caller holds are addresses too. *)
Section Result.
Context {V : Type}.
Variable text : V -> option pystr.
Variable of_cell : cellv -> V.
Variable blank : V.
(** the DataFrame objects alive (batch.py:223-272) *)
Definition heap := list (frame V).
(** the DataFrame at an address *)
Definition load (h : heap) (a : nat) : frame V := nth a h [].
(** changing a DataFrame in place *)
Definition store (h : heap) (a : nat) (f : frame V) : heap := firstn a h ++ f :: skipn (S a) h.
(** the only attribute of a BatchResult: the address of its DataFrame *)
Record result := mkResult { r_df : nat }.
(** 223-224: df.copy() *)
Definition new_result (h : heap) (a : nat) : result * heap := (mkResult (length h), h ++ [load h a]).
(** 231-232, 234-235, 237-239 *)
Definition result_getitem (h : heap) (r : result) (c : pystr) : res (list V) :=
  match fget c (load h (r_df r)) with Some v => Ok v | None => Err KeyError end.
(** batch.py:234-235 *)
Definition result_setitem (h : heap) (r : result) (c : pystr) (v : list V) : heap := store h (r_df r) (fset c v (load h (r_df r))).
(** batch.py:237-239 *)
Definition get_dataframe (r : result) : nat := r_df r.
(** 271-272: the result of apply_on is a new DataFrame *)
Definition result_extract (h : heap) (r : result) (pattern : pystr) : option (res unit * result * heap) :=
  option_map (fun o => match o with
                       | Ok f => (Ok tt, mkResult (length h), h ++ [f])
                       | Err e => (Err e, r, h)
                       end) (apply_on text of_cell blank pattern (str "file") true (load h (r_df r))).
End Result.
Arguments heap : clear implicits.

(** batch.py:226-229 __getattr__ of BatchResult: called for attributes that are not found otherwise.  [fields] is the instance's
    __dict__ (name to address of a DataFrame), [df_attr] the lookup on a DataFrame.  Evaluating self.__df is the lookup of
    _BatchResult__df, which calls __getattr__ again if that field does not exist; [depth] is the recursion limit. *)
Definition df_field : pystr := str "_BatchResult__df".
(** batch.py:226-229 (__getattr__); [depth] is Python's recursion limit *)
Fixpoint getattr_ {A} (depth : nat) (df_attr : nat -> pystr -> res A) (as_frame : A -> option nat) (in_field : nat -> A)
    (fields : list (pystr * nat)) (attr : pystr) : res A :=
  match depth with
  | O => Err (OtherError "RecursionError")
  | S d =>
    match find (fun p => zs_eqb (fst p) attr) fields with
    | Some (_, a) => Ok (in_field a)
    | None => rbind (getattr_ d df_attr as_frame in_field fields df_field) (fun x =>
                match as_frame x with Some a => df_attr a attr | None => Err AttributeError end)
    end
  end.
