(** What a Keyence measurement collection contains, written down without the extractor's machinery. *)
From Coq Require Import String ZArith List Bool.
From Verif Require Import Base ModelBytes ModelSur ModelZip SpecZip.
Import ListNotations.
Local Open Scope list_scope.
Local Open Scope Z_scope.

Definition occurs (t s : pystr) : Prop := exists a b, s = a ++ t ++ b.
(** lines and their text *)
Fixpoint joined (ls : list pystr) : pystr := match ls with [] => [] | [l] => l | l :: r => l ++ [10] ++ joined r end.
Definition opening (tag : string) : pystr := str "<" ++ str tag ++ str ">".
Definition closing (tag : string) : pystr := str "</" ++ str tag ++ str ">".
(** a line without the tag, or with one value between its tags *)
Inductive line_values (tag : string) : pystr -> list pystr -> Prop :=
| no_value l : ~ In 10 l -> ~ occurs (opening tag) l -> line_values tag l []
| one_value a v b : ~ In 10 (a ++ v ++ b) -> ~ In 60 a -> ~ In 60 b -> v <> [] -> line_values tag (a ++ opening tag ++ v ++ closing tag ++ b) [v].
(** the values of a text in which every line is of one of these forms *)
Definition lists_values (text : pystr) (tag : string) (vs : list pystr) : Prop :=
  exists ls vss, text = joined ls /\ Forall2 (line_values tag) ls vss /\ vs = concat vss.
(** one component of a path *)
Definition component (s : pystr) : Prop := s <> [] /\ s <> [46] /\ ~ In 47 s.
(** the last component of a path *)
Definition base_name (p n : pystr) : Prop := component n /\ (p = n \/ exists q, p = q ++ [47] ++ n).
(** names in an archive: no leading slash, no two slashes together *)
Definition normal (n : pystr) : Prop := n <> [] /\ (forall r, n <> 47 :: r) /\ ~ occurs [47; 47] n.
(** the folder of the index: the archive itself or a folder in it *)
Definition top_folder (top : pystr) : Prop := top = [] \/ exists q, top = q ++ [47] /\ q <> [] /\ (forall r, q <> r ++ [47]).
Definition directly_in (top n : pystr) : Prop := exists f, n = top ++ f /\ f <> [] /\ ~ In 47 f.
(** measurements are recognised by their first three bytes *)
Definition measurement (b : bytes) : Prop := exists m r, In m ["VK3"; "VK4"; "VK6"; "VK7"]%string /\ b = str m ++ r.
(** an archive with one index, and what the index says *)
Record collection := { k_top : pystr; k_index : pystr; k_text : pystr; k_ids : list pystr; k_originals : list pystr }.
(** measurement n is listed with an original path of this last component *)
Definition belongs_to (k : collection) (n name : pystr) : Prop :=
  exists id file o, n = k_top k ++ id ++ [47] ++ file /\ component id /\ component file /\ In (id, o) (combine (k_ids k) (k_originals k)) /\ base_name o name.
Definition is_collection (read_text : bytes -> res pystr) (subfolders : list pystr) (a : archive) (k : collection) : Prop :=
  (forall n, In n (map fst a) -> normal n) /\ top_folder (k_top k) /\
  (exists b, SpecZip.holds a (k_index k) b /\ read_text b = Ok (k_text k)) /\
  (forall n, In n (map fst a) -> (directly_in (k_top k) n <-> n = k_index k)) /\
  lists_values (k_text k) "Path" (k_ids k) /\ lists_values (k_text k) "OriginalFileName" (k_originals k) /\
  length (k_ids k) = length (k_originals k) /\ NoDup (k_ids k) /\
  (forall n b, In (n, b) a -> measurement b -> exists name, belongs_to k n name) /\
  (forall o, In o (k_originals k) -> exists name, base_name o name /\ name <> str ".." /\ ~ In name subfolders /\ ~ In 0 name).
(** the last measurement with a name *)
Definition last_with (k : collection) (a : archive) (name : pystr) (b : bytes) : Prop :=
  exists before n after, a = before ++ (n, b) :: after /\ measurement b /\ belongs_to k n name /\
    forall n' b', In (n', b') after -> measurement b' -> ~ belongs_to k n' name.
