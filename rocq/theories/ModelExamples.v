(** The example files of the repository: surfalize/examples.py.  What the network answers is a parameter: the parsed body of the directory
    listing, and the bytes behind every URL ([None]: requests raises ConnectionError). *)
From Coq Require Import String.
From Coq Require Import List ZArith Bool.
From Verif Require Import Base ModelBytes ModelDispatch.
Import ListNotations.
Local Open Scope list_scope.
Local Open Scope res_scope.

(** response.json(), examples.py:64 (numbers and booleans play no role and are one case) *)
Inductive json := JNull | JAtom | JStr (s : pystr) | JArr (l : list json) | JObj (d : list (pystr * json)).
(** examples.py:46-62, 26-36: ConnectionError *)
Definition offline : exn := OtherError "ConnectionError".
(** f['name'] on one element of the answer, examples.py:64: only an object has string keys *)
Definition jitem (j : json) (k : pystr) : res json :=
  match j with
  | JObj d => match assoc k d with Some v => Ok v | None => Err KeyError end
  | _ => Err TypeError
  end.
(** for f in response.json(), examples.py:64: an object is iterated over its keys, numbers and null cannot be iterated *)
Definition jiter (j : json) : res (list json) :=
  match j with
  | JArr l => Ok l
  | JObj d => Ok (map (fun kv => JStr (fst kv)) d)
  | JStr s => Ok (map (fun c => JStr [c]) s)
  | _ => Err TypeError
  end.
(** examples.py:13-21 ExampleFile: name and url as they came *)
Record example := mkExample { ex_name : json; ex_url : json }.
(** a list comprehension whose element expression may raise, examples.py:64 *)
Fixpoint each {A B} (f : A -> res B) (l : list A) : res (list B) :=
  match l with [] => Ok [] | x :: l' => do y <- f x; do ys <- each f l'; Ok (y :: ys) end.
(** the list comprehension of examples.py:66: Path(f.name).suffix == format; Path of anything but a string raises TypeError *)
Fixpoint keep (fmt : pystr) (l : list example) : res (list example) :=
  match l with
  | [] => Ok []
  | e :: l' => match ex_name e with
               | JStr n => do r <- keep fmt l'; Ok (if zs_eqb (path_suffix n) fmt then e :: r else r)
               | _ => Err TypeError
               end
  end.
(** examples.py:46-67 list_examples *)
Definition list_examples (answer : option json) (fmt : option pystr) : res (list example) :=
  match answer with
  | None => Err offline
  | Some j =>
    do l <- jiter j;
    do fs <- each (fun f => do n <- jitem f (str "name"); do u <- jitem f (str "download_url"); Ok (mkExample n u)) l;
    match fmt with Some f => keep f fs | None => Ok fs end
  end.

Section Loading.
Variable X : Type.
Variable readers : format -> reader X.
Variable web : pystr -> option bytes.
(** examples.py:26-43 ExampleFile.load of a file with string name and url: the download becomes a buffer, the suffix of the name the format *)
Definition load_example (name url : pystr) : res X :=
  match web url with
  | None => Err offline
  | Some b =>
    let fmt := match path_suffix name with [] => None | s => Some s end in
    fst (fst (load X readers Buffer fmt (mkWorld (fun _ => None) b 0)))
  end.
End Loading.
