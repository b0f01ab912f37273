(** Keyence measurement collections: surfalize/file/cag.py. *)
From Coq Require Import String Ascii ZArith Lia Bool.
From Coq Require Import List.
From Verif Require Import Base ModelBytes ModelSur ModelGwy ModelZip.
Import ListNotations.
Local Open Scope Z_scope.

(** what is left of a text behind a prefix *)
Fixpoint behind (p s : pystr) : option pystr :=
  match p, s with [], _ => Some s | x :: p', y :: s' => if x =? y then behind p' s' else None | _, [] => None end.
(** (.+) followed by [close]: as much as possible of the line, at least one character *)
Fixpoint greedy (close s : pystr) : option (pystr * pystr) :=
  match s with
  | [] => None
  | c :: s' =>
    if c =? 10 then None else
    match greedy close s' with
    | Some (g, r) => Some (c :: g, r)
    | None => match behind close s' with Some r => Some ([c], r) | None => None end
    end
  end.
(** re.findall('<tag>(.+)</tag>', text) *)
Fixpoint findall_from (fuel : nat) (opening closing : pystr) (s : pystr) : list pystr :=
  match fuel with
  | O => []
  | S n =>
    match s with
    | [] => []
    | _ :: s' =>
      match behind opening s with
      | Some t => match greedy closing t with Some (g, r) => g :: findall_from n opening closing r | None => findall_from n opening closing s' end
      | None => findall_from n opening closing s'
      end
    end
  end.
(** re.findall('<tag>(.+)</tag>', text), cag.py:5-10 *)
Definition findall (tag : string) (s : pystr) : list pystr :=
  findall_from (S (length s)) (str "<" ++ str tag ++ str ">") (str "</" ++ str tag ++ str ">") s.
(** the components of a path between slashes; pathlib drops empty ones and dots *)
Fixpoint components (s : pystr) : list pystr :=
  match s with
  | [] => [[]]
  | c :: s' => if c =? 47 then [] :: components s' else match components s' with x :: l => (c :: x) :: l | [] => [[c]] end
  end.
(** PurePath(s).parts of a relative path, cag.py:12-36: empty components and single dots are dropped *)
Definition parts (s : pystr) : list pystr := List.filter (fun c => match c with [] => false | _ => negb (zs_eqb c (str ".")) end) (components s).
(** pathlib.Path(s).name, on a system whose separator is the slash *)
Definition path_name (s : pystr) : pystr := last (parts s) [].
(** cag.py:5-10 (parse_idx_table) *)
Definition parse_idx_table (s : pystr) : list (pystr * pystr) :=
  fold_left (fun d '(k, v) => gput d k v) (combine (findall "Path" s) (map path_name (findall "OriginalFileName" s))) [].
(** s.rstrip('/'), posixpath.dirname *)
Definition is_slash (c : Z) : bool := c =? 47.
(** removing leading slashes (helper of rstrip_slash) *)
Fixpoint drop_slashes (s : pystr) : pystr := match s with c :: s' => if is_slash c then drop_slashes s' else s | [] => [] end.
(** s.rstrip('/') as posixpath.dirname applies it to the head (cag.py:12-36) *)
Definition rstrip_slash (s : pystr) : pystr := rev (drop_slashes (rev s)).
(** the rest from the first slash on (helper of dirname, applied to the reversed path) *)
Fixpoint after_slash (s : pystr) : pystr := match s with c :: s' => if is_slash c then s else after_slash s' | [] => [] end.
(** posixpath.dirname (cag.py:12-36) *)
Definition dirname (s : pystr) : pystr :=
  let head := rev (after_slash (rev s)) in if forallb is_slash head then head else rstrip_slash head.
(** zipfile.Path(archive, at).parent, as the name within the archive *)
Definition parent_at (at_ : pystr) : pystr := match dirname (rstrip_slash at_) with [] => [] | d => d ++ [47] end.
(** zipfile.Path(archive, at).name: the last component of the path of the archive joined with at *)
Definition at_name (zip at_ : pystr) : pystr :=
  if match at_ with c :: _ => is_slash c | [] => false end then path_name at_ else last (parts zip ++ parts at_) [].
(** zipfile.Path(archive, at).iterdir(), only the files *)
Definition files_in (a : archive) (at_ : pystr) : list pystr :=
  List.filter (fun n => zs_eqb (dirname (rstrip_slash n)) (rstrip_slash at_) && negb (match rev n with c :: _ => is_slash c | [] => true end)) (namelist a).
Section extract.
(** bytes read as text: the locale's encoding, line ends translated *)
Variable read_text : bytes -> res pystr.
(** the path of the archive, and the files of its folder as texts, in the order in which they are listed *)
Variable zip : pystr.
Variable beside : list (res pystr).
(** cag.py:27-30 for one folder: the last file counts, None without files *)
Definition tables (texts : list (res pystr)) : res (option (list (pystr * pystr))) :=
  fold_left (fun r t => rbind r (fun _ => rmap (fun s => Some (parse_idx_table s)) t)) texts (Ok None).
(** the parent of a file outside of any folder is the archive, and its parent is the archive's folder *)
Definition idx_table (a : archive) (at_ : pystr) : res (option (list (pystr * pystr))) :=
  match parent_at at_ with
  | [] => tables beside
  | p => tables (map (fun n => rbind (amember a n) read_text) (files_in a (parent_at p)))
  end.
(** the target folder: its files by name *)
Definition folder := list (pystr * bytes).
(** the names of its folders *)
Variable subfolders : list pystr.
(** the magics of Keyence files, cag.py:25-26 *)
Definition vk_magic (b : bytes) : bool := existsb (zs_eqb (firstn 3 (firstn 5 b))) (map str ["VK3"; "VK4"; "VK6"; "VK7"]%string).
(** open(target / name, 'wb') *)
Definition open_for_writing (name : pystr) : res unit :=
  if existsb (zs_eqb name) ([[]; str ".."] ++ subfolders) then Err (OtherError "IsADirectoryError")
  else if existsb (Z.eqb 0) name then Err ValueError else Ok tt.
(** cag.py:18-36: the members one after the other; what is in the target folder afterwards, and whether all went well *)
Fixpoint extract_members (a : archive) (ms : archive) (table : option (list (pystr * pystr))) (d : folder) : folder * res unit :=
  match ms with
  | [] => (d, Ok tt)
  | (name, b) :: ms' =>
    if vk_magic b then
      let id := at_name zip (parent_at name) in
      match (match table with Some t => Ok (Some t) | None => idx_table a name end) with
      | Err e => (d, Err e)
      | Ok None => (d, Err TypeError)
      | Ok (Some t) =>
        match gget t id with
        | None => (d, Err KeyError)
        | Some n => match open_for_writing n with Err e => (d, Err e) | Ok _ => extract_members a ms' (Some t) (gput d n b) end
        end
      end
    else extract_members a ms' table d
  end.
(** cag.py:12-36 (extract_cag), with an existing target folder *)
Definition extract_cag (a : archive) (d : folder) : folder * res unit := extract_members a a None d.
End extract.
