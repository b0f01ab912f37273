(** The documentation of the methods of a Batch: surfalize/utils.py remove_parameter_from_docstring and its use in
    surfalize/batch.py:_create_batch_method. Texts are lists of characters; the parameter names are identifiers, so that
    the pattern built from one contains no character with a meaning for re. *)
From Coq Require Import String Ascii List Bool Arith Lia Permutation.
Import ListNotations.
Local Open Scope list_scope.

(** characters; models no code: the line feed, the tabulator and the four spaces of the pattern of utils.py:20 *)
Definition nl : ascii := "010"%char.
(** utils.py:20: the tabulator *)
Definition tab : ascii := "009"%char.
(** utils.py:20: four spaces *)
Definition spaces4 : list ascii := [" "; " "; " "; " "]%char.

(** utils.py:20: a literal part of the pattern; what follows it *)
Fixpoint after_prefix (p s : list ascii) : option (list ascii) :=
  match p, s with
  | [], _ => Some s
  | a :: p', b :: s' => if Ascii.eqb a b then after_prefix p' s' else None
  | _ :: _, [] => None
  end.
(** utils.py:20: the text up to the next line feed, and what follows that *)
Fixpoint cut_line (s : list ascii) : option (list ascii * list ascii) :=
  match s with
  | [] => None
  | c :: s' => if Ascii.eqb c nl then Some ([], s') else option_map (fun x => (c :: fst x, snd x)) (cut_line s')
  end.
(** utils.py:20: the part '.+\n': the dot matches everything but a line feed, so it takes the rest of the line, which must not be empty *)
Definition rest_of_line (s : list ascii) : option (list ascii) := match cut_line s with Some (_ :: _, r) => Some r | _ => None end.
(** utils.py:20: the part '(    |\t).+\n': a line that starts with four spaces or a tabulator *)
Definition indented_line (s : list ascii) : option (list ascii) :=
  match after_prefix spaces4 s with
  | Some t => rest_of_line t
  | None => match after_prefix [tab] s with Some t => rest_of_line t | None => None end
  end.
(** utils.py:20: as many such lines as there are; [n] bounds their number by the length of the text *)
Fixpoint indented_lines (n : nat) (s : list ascii) : list ascii :=
  match n with O => s | S n' => match indented_line s with Some r => indented_lines n' r | None => s end end.
(** utils.py:20: the whole pattern at the start of the text *)
Definition match_entry (p s : list ascii) : option (list ascii) :=
  match after_prefix p s with
  | None => None
  | Some t => match rest_of_line t with
      | None => None
      | Some r => match indented_line r with None => None | Some r' => Some (indented_lines (List.length r') r') end
      end
  end.
(** utils.py:21: re.sub replaces the matches from left to right; [n] exceeds the number of characters *)
Fixpoint sub_empty (n : nat) (p s : list ascii) : list ascii :=
  match n with
  | O => []
  | S n' => match match_entry p s with
      | Some r => sub_empty n' p r
      | None => match s with [] => [] | c :: s' => c :: sub_empty n' p s' end
      end
  end.
(** utils.py:5-21 (remove_parameter_from_docstring) *)
Definition remove_parameter (p s : list ascii) : list ascii := sub_empty (S (List.length s)) p s.
(** batch.py:558-563: the parameters are removed one after the other; they come from a set, whose order of iteration
    depends on the hashes of the strings and changes from one run of Python to the next: [order] is any of them *)
Definition filtered_doc (order : list (list ascii)) (doc : list ascii) : list ascii := fold_left (fun d p => remove_parameter p d) order doc.
