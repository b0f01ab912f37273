(** Batch processing: surfalize/batch.py:275-450, 452-574, 664-812, 847-951 and the decorator surfalize/base.py:41-93.
    The Surface class is an arbitrary table of methods over an arbitrary type of surfaces [St]; a call may succeed or raise and may
    change the surface.  Values [V], arguments [Arg] and files [File] are arbitrary.  Dictionaries are association lists in insertion
    order. *)
From Coq Require Import String ZArith Bool.
From Coq Require Import List.
From Verif Require Import Base.
Import ListNotations.
Local Open Scope string_scope.
Local Open Scope list_scope.

(** a Python dict in insertion order (results of batch.py:434-449) *)
Definition dict (V : Type) := list (string * V).
(** d.get(k) of a Python dict (batch.py:434-449) *)
Fixpoint dget {V} (k : string) (d : dict V) : option V :=
  match d with [] => None | (k', v) :: d' => if String.eqb k k' then Some v else dget k d' end.
(** d[k] = v: replaces the value in place or appends *)
Fixpoint dset {V} (k : string) (v : V) (d : dict V) : dict V :=
  match d with
  | [] => [(k, v)]
  | (k', v') :: d' => if String.eqb k k' then (k', v) :: d' else (k', v') :: dset k v d'
  end.
(** d.update(e) *)
Definition dupdate {V} (d e : dict V) : dict V := fold_left (fun a p => dset (fst p) (snd p) a) e d.

Section Model.
Context {St V Arg File : Type}.

(** what a method returns: a list-like object (utils.is_list_like) or anything else *)
Inductive value := Scalar (v : V) | Many (vs : list V).
(** the types 'operation' and 'parameter' of base.py:41-93 (batch_method) *)
Inductive mtype := TOperation | TParameter.
(** base.py:63-91: the attributes set by batch_method, if the method is decorated; [m_call] is the call itself *)
Record method := mkMethod {
  m_type : option mtype;
  m_fixed : dict Arg;
  m_labels : option (list string);
  m_call : list Arg -> dict Arg -> St -> res value * St }.
(** functions handed to custom_parameter and custom_operation; [c_id] is id(func) *)
Record cpar := mkCpar { cp_id : Z; cp_run : St -> res (dict V) * St }.
(** a function handed to custom_operation, batch.py:396-402, 881-904 *)
Record cop := mkCop { co_run : St -> res unit * St }.
(** the methods of the surface class the steps use (getattr in batch.py:294-308, 343-378) *)
Record env := mkEnv {
  e_methods : string -> option method;      (* getattr(surface, name) *)
  e_load : File -> res St;                  (* Surface.load *)
  e_name : File -> V;                       (* file.name *)
  e_nan : V;                                (* np.nan *)
  e_iso : list string }.                    (* Surface.ISO_PARAMETERS *)

(** batch.py:275-292, 311-341, 381-385, 396-399: the registered steps *)
Inductive step :=
  | SOp (ident : string) (args : list Arg) (kwargs : dict Arg)
  | SPar (ident name : string) (args : list Arg) (kwargs : dict Arg)
  | SCustomPar (f : cpar)
  | SCustomOp (f : cop).
(** isinstance(step, (_Operation, _CustomOperation)), batch.py:434-449 *)
Definition is_operation (s : step) : bool := match s with SOp _ _ _ | SCustomOp _ => true | _ => false end.
(** isinstance(step, (_Parameter, _CustomParameter)), batch.py:434-449 *)
Definition is_parameter (s : step) : bool := negb (is_operation s).
(** step.name of the parameter classes: a string or id(func), which never compare equal *)
Inductive pname := NStr (s : string) | NId (z : Z).
(** == of two step names, batch.py:746-765 *)
Definition pname_eqb (a b : pname) : bool :=
  match a, b with NStr x, NStr y => String.eqb x y | NId x, NId y => Z.eqb x y | _, _ => false end.
(** step.name of the parameter classes, batch.py:337-341, 381-385; operations are not compared *)
Definition step_name (s : step) : option pname :=
  match s with SPar _ n _ _ => Some (NStr n) | SCustomPar f => Some (NId (cp_id f)) | _ => None end.

(** *** Registration *)
(** batch.py:746-764 _add_step; the message mentions step.identifier, which a custom parameter does not have *)
Definition add_step (steps : list step) (s : step) : res unit * list step :=
  match step_name s with
  | None => (Ok tt, steps ++ [s])
  | Some n =>
    if existsb (fun t => match step_name t with Some m => pname_eqb n m | None => false end) steps
    then (Err (match s with SCustomPar _ => AttributeError | _ => BatchError end), steps)
    else (Ok tt, steps ++ [s])
  end.
(** the elements of the list handed to Batch.roughness_parameters: names or _Parameter objects *)
Inductive request := RName (n : string) | RPar (ident : string) (args : list Arg) (kwargs : dict Arg) (custom_name : option string).
(** batch.py:906-951: names become _Parameter objects *)
Definition request_step (r : request) : step :=
  match r with
  | RName n => SPar n n [] []
  | RPar i a k c => SPar i (match c with Some n => n | None => i end) a k
  end.
(** the loop of roughness_parameters, batch.py:906-951 *)
Fixpoint add_steps (steps : list step) (l : list step) : res unit * list step :=
  match l with
  | [] => (Ok tt, steps)
  | s :: l' => match add_step steps s with (Ok _, steps') => add_steps steps' l' | (Err e, steps') => (Err e, steps') end
  end.
(** the calls a user can make on a Batch.  [custom_name] is the keyword argument of that name; for operations it stays among the
    keyword arguments and only fails during execution, so the model has it for parameters only. *)
Inductive call :=
  | CallMethod (name : string) (args : list Arg) (kwargs : dict Arg) (custom_name : option string)
  | CallCustomPar (f : cpar)
  | CallCustomOp (f : cop)
  | CallRoughness (l : option (list request)).
(** batch.py:535-549 _create_batch_method (fixed keyword arguments override), 847-904 custom_parameter, custom_operation,
    906-951 roughness_parameters *)
Definition register (E : env) (steps : list step) (c : call) : res unit * list step :=
  match c with
  | CallMethod name args kwargs cn =>
    match e_methods E name with
    | Some (mkMethod (Some ty) fixed _ _) =>
      let kw := fold_left (fun a p => dset (fst p) (snd p) a) fixed kwargs in
      match ty with
      | TOperation => add_step steps (SOp name args kw)
      | TParameter => add_step steps (SPar name (match cn with Some n => n | None => name end) args kw)
      end
    | _ => (Err AttributeError, steps)
    end
  | CallCustomPar f => add_step steps (SCustomPar f)
  | CallCustomOp f => add_step steps (SCustomOp f)
  | CallRoughness None => add_steps steps (map (fun n => request_step (RName n)) (e_iso E))
  | CallRoughness (Some l) => add_steps steps (map request_step l)
  end.
(** a history of calls; a call that raises does not end the history (the caller may go on) *)
Fixpoint history (E : env) (steps : list step) (cs : list call) : list (res unit) * list step :=
  match cs with
  | [] => ([], steps)
  | c :: cs' => let (r, steps1) := register E steps c in let (rs, steps2) := history E steps1 cs' in (r :: rs, steps2)
  end.

(** *** Execution on one surface *)
(** batch.py:369-378: labelling; the comprehension builds a dictionary *)
Definition label (name : string) (labels : option (list string)) (v : value) : res (dict V) :=
  match v with
  | Scalar x => Ok [(name, x)]
  | Many xs =>
    match labels with
    | None => Err BatchError
    | Some ls => if Nat.eqb (length xs) (length ls)
                 then Ok (dupdate [] (combine (map (fun l => name ++ "_" ++ l)%string ls) xs)) else Err BatchError
    end
  end.
(** batch.py:343-378 _Parameter.calculate_from *)
Definition calculate_from (E : env) (ident name : string) (args : list Arg) (kwargs : dict Arg) (ignore : bool) (s : St) : res (dict V) * St :=
  match e_methods E ident with
  | None => (Err AttributeError, s)
  | Some m =>
    match m_call m args kwargs s with
    | (Ok v, s') => (label name (m_labels m) v, s')
    | (Err CalculationError, s') =>
      if ignore
      then (label name (m_labels m) (match m_labels m with Some ls => Many (repeat (e_nan E) (length ls)) | None => Scalar (e_nan E) end), s')
      else (Err CalculationError, s')
    | (Err e, s') => (Err e, s')
    end
  end.
(** batch.py:387-393 _CustomParameter.calculate_from: an ignored error leaves result unbound *)
Definition calculate_custom (f : cpar) (ignore : bool) (s : St) : res (dict V) * St :=
  match cp_run f s with
  | (Err CalculationError, s') => (Err (if ignore then UnboundLocalError else CalculationError), s')
  | r => r
  end.
(** batch.py:294-308, 401-402 execute_on *)
Definition execute_on (E : env) (st : step) (s : St) : res unit * St :=
  match st with
  | SOp ident args kwargs =>
    match e_methods E ident with
    | None => (Err AttributeError, s)
    | Some m => match m_call m args kwargs s with (Ok _, s') => (Ok tt, s') | (Err e, s') => (Err e, s') end
    end
  | SCustomOp f => co_run f s
  | _ => (Ok tt, s)
  end.
(** one iteration of the loops in _task (batch.py:434-449) *)
Definition exec_step (E : env) (ignore : bool) (st : step) (s : St) (results : dict V) : res (St * dict V) :=
  match st with
  | SOp _ _ _ | SCustomOp _ => match execute_on E st s with (Ok _, s') => Ok (s', results) | (Err e, _) => Err e end
  | SPar ident name args kwargs =>
    match calculate_from E ident name args kwargs ignore s with (Ok d, s') => Ok (s', dupdate results d) | (Err e, _) => Err e end
  | SCustomPar f =>
    match calculate_custom f ignore s with (Ok d, s') => Ok (s', dupdate results d) | (Err e, _) => Err e end
  end.
(** the loop over the steps in _task, batch.py:434-449 *)
Fixpoint exec_steps (E : env) (ignore : bool) (l : list step) (s : St) (results : dict V) : res (St * dict V) :=
  match l with
  | [] => Ok (s, results)
  | st :: l' => rbind (exec_step E ignore st s results) (fun p => exec_steps E ignore l' (fst p) (snd p))
  end.
(** batch.py:405-450 _task *)
Definition task (E : env) (steps : list step) (ignore chained : bool) (f : File) : res (dict V) :=
  rbind (e_load E f) (fun s =>
    let results := [("file", e_name E f)] in
    if chained then rmap snd (exec_steps E ignore steps s results)
    else rbind (exec_steps E ignore (filter is_operation steps) s results) (fun p =>
           rmap snd (exec_steps E ignore (filter is_parameter steps) (fst p) (snd p)))).

(** *** Dispatching: batch.py:664-723.  A pool of threads: each file is one thread, any thread may take the next step at any time;
    finished results are put into a queue in the order of completion, from which the main thread takes them. *)
Inductive thread :=
  | Waiting (f : File)
  | Running (f : File) (todo : list step) (s : St) (results : dict V)
  | Finished.
(** the files and what became of them, in the order in which batch.py:664-723 collects them *)
Definition queue := list (File * res (dict V)).
(** batch.py:434-449: without preserve_chaining_order the operations come first *)
Definition plan (steps : list step) (chained : bool) : list step :=
  if chained then steps else filter is_operation steps ++ filter is_parameter steps.
(** the next step of one thread *)
Definition advance (E : env) (ignore : bool) (p : list step) (t : thread) : thread * queue :=
  match t with
  | Waiting f => match e_load E f with
                 | Ok s => (Running f p s [("file", e_name E f)], [])
                 | Err e => (Finished, [(f, Err e)])
                 end
  | Running f [] _ results => (Finished, [(f, Ok results)])
  | Running f (st :: todo) s results =>
    match exec_step E ignore st s results with
    | Ok (s', results') => (Running f todo s' results', [])
    | Err e => (Finished, [(f, Err e)])
    end
  | Finished => (Finished, [])
  end.
(** replacing one thread's state (helper of the model of the pool, batch.py:664-723) *)
Fixpoint update_at {A} (n : nat) (x : A) (l : list A) : list A :=
  match l, n with [], _ => [] | _ :: l', O => x :: l' | y :: l', S n' => y :: update_at n' x l' end.
(** a schedule says which thread moves next *)
Fixpoint run_pool (E : env) (ignore : bool) (p : list step) (schedule : list nat) (ts : list thread) (q : queue) : list thread * queue :=
  match schedule with
  | [] => (ts, q)
  | i :: rest =>
    match nth_error ts i with
    | None => run_pool E ignore p rest ts q
    | Some t => let (t', out) := advance E ignore p t in run_pool E ignore p rest (update_at i t' ts) (q ++ out)
    end
  end.
(** the main thread: collects results, calls on_file_complete for each, an exception ends the loop *)
Fixpoint collect (q : queue) : res (list (dict V)) * list (dict V) :=
  match q with
  | [] => (Ok [], [])
  | (_, Ok d) :: q' => let (r, calls) := collect q' in (rmap (cons d) r, d :: calls)
  | (_, Err e) :: _ => (Err e, [])
  end.
(** batch.py:717-723, the sequential loop *)
Fixpoint sequential (E : env) (steps : list step) (ignore chained : bool) (files : list File) : res (list (dict V)) * list (dict V) :=
  match files with
  | [] => (Ok [], [])
  | f :: files' =>
    match task E steps ignore chained f with
    | Err e => (Err e, [])
    | Ok d => let (r, calls) := sequential E steps ignore chained files' in (rmap (cons d) r, d :: calls)
    end
  end.
(** the pool has been joined, batch.py:664-723 *)
Definition all_finished (ts : list thread) : Prop := forall t, In t ts -> t = Finished.
(** batch.py:767-808 execute up to the list of results: with threads, the outcome depends on the schedule *)
Inductive executes (E : env) (steps : list step) (ignore chained : bool) (files : list File) : bool -> res (list (dict V)) * list (dict V) -> Prop :=
  | ex_no_steps mp : steps = [] -> executes E steps ignore chained files mp (Err BatchError, [])
  | ex_sequential : steps <> [] -> executes E steps ignore chained files false (sequential E steps ignore chained files)
  | ex_pool schedule ts q : steps <> [] ->
      run_pool E ignore (plan steps chained) schedule (map Waiting files) [] = (ts, q) -> all_finished ts ->
      executes E steps ignore chained files true (collect q).

(** *** The table: pd.DataFrame(results) of a list of dictionaries: the columns in order of first appearance, missing entries NaN *)
Definition columns (rows : list (dict V)) : list string :=
  fold_left (fun cs r => fold_left (fun cs p => if existsb (String.eqb (fst p)) cs then cs else cs ++ [fst p]) r cs) rows [].
(** one cell of pd.DataFrame(list of dicts), batch.py:725-744 *)
Definition cell (nan : V) (row : dict V) (c : string) : V := match dget c row with Some v => v | None => nan end.
(** pd.DataFrame(results), batch.py:725-744: columns in the order of first appearance *)
Definition dataframe (nan : V) (rows : list (dict V)) : list string * list (dict V) :=
  (columns rows, map (fun r => map (fun c => (c, cell nan r c)) (columns rows)) rows).
(** batch.py:738-740: pd.merge(additional, df, on='file'), an inner join in the order of the left keys; columns other than the key
    that occur on both sides get the suffixes _x and _y (pandas raises MergeError if that clashes with a further column: not modelled) *)
Definition others (cols : list string) : list string := filter (fun c => negb (String.eqb c "file")) cols.
(** the suffix pd.merge appends to a column both frames have, batch.py:738-740 *)
Definition renamed (other : list string) (suffix : string) (c : string) : string := if existsb (String.eqb c) other then (c ++ suffix)%string else c.
(** pd.merge(additional, df, on='file'), batch.py:738-740 *)
Definition merge_rows (veqb : V -> V -> bool) (nan : V) (left_ right_ : list string * list (dict V)) : list (dict V) :=
  flat_map (fun l => flat_map (fun r =>
    if veqb (cell nan l "file") (cell nan r "file")
    then [map (fun c => (if String.eqb c "file" then c else renamed (others (fst right_)) "_x" c, cell nan l c)) (fst left_) ++
          map (fun c => (renamed (others (fst left_)) "_y" c, cell nan r c)) (others (fst right_))]
    else []) (snd right_)) (snd left_).
(** batch.py:725-744 (_construct_dataframe) without the file name pattern, which is in ModelTable.v *)
Definition construct_dataframe (veqb : V -> V -> bool) (nan : V) (additional : option (list string * list (dict V))) (results : list (dict V)) : res (list (dict V)) :=
  match additional with
  | None => Ok (snd (dataframe nan results))
  | Some a => match results with
              | [] => Err KeyError          (* no files: the table has no column 'file' *)
              | _ => Ok (merge_rows veqb nan a (dataframe nan results))
              end
  end.
End Model.
Arguments value : clear implicits.
Arguments method : clear implicits.
Arguments cpar : clear implicits.
Arguments cop : clear implicits.
Arguments env : clear implicits.
Arguments step : clear implicits.
Arguments call : clear implicits.
Arguments request : clear implicits.
Arguments thread : clear implicits.
Arguments queue : clear implicits.
