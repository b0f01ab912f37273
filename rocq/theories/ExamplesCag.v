(** A concrete collection, and what does not hold of the extractor. *)
From Coq Require Import String Ascii ZArith Lia Bool.
From Coq Require Import List.
From Verif Require Import Base ModelBytes ModelSur ModelGwy ModelZip ModelCag SpecZip SpecCag ProofBytes PropsMagic PropsLayout ProofZip ProofFlat PropsX3p PropsCag.
Import ListNotations.
Local Open Scope list_scope.
Local Open Scope Z_scope.

Definition element (tag value : string) : pystr := str "  " ++ opening tag ++ str value ++ closing tag.
Definition index_of (l : list (string * string)) : pystr :=
  joined ([str "<List>"] ++ flat_map (fun '(id, o) => [element "Path" id; element "OriginalFileName" o]) l ++ [str "</List>"]).
Definition vk (x : Z) : bytes := str "VK4_" ++ [x; x].
Definition two_files (o1 o2 : string) : archive :=
  [(str "Doc/", []); (str "Doc/index.xml", index_of [("1", o1); ("2", o2)]%string); (str "Doc/1/data.vk", vk 1); (str "Doc/1/thumb.png", [7; 7]); (str "Doc/2/data.vk", vk 2)].
(** texts as they are *)
Definition plainly (b : bytes) : res pystr := Ok b.
Example cag_example : extract_cag plainly (str "x.cag") [] [] (two_files "D:/a/b.vk4" "c.vk4") [(str "old", [1]); (str "c.vk4", [2])] =
  ([(str "old", [1]); (str "c.vk4", vk 2); (str "b.vk4", vk 1)], Ok tt).
Proof. vm_compute. reflexivity. Qed.
Definition two_collection (o1 o2 : string) : collection :=
  {| k_top := str "Doc/"; k_index := str "Doc/index.xml"; k_text := index_of [("1", o1); ("2", o2)]%string; k_ids := map str ["1"; "2"]%string; k_originals := map str [o1; o2] |}.
Lemma no_char_no_tag tag l : ~ In 62 l -> ~ occurs (opening tag) l.
Proof. intros H (a & b & ->). apply H. apply in_or_app. right. apply in_or_app. left. unfold opening. apply in_or_app. right. apply in_or_app. right. left. reflexivity. Qed.
Fixpoint occursb (t s : pystr) : bool := prefix_of t s || match s with [] => false | _ :: s' => occursb t s' end.
Lemma occursb_ok t : forall s, occursb t s = false -> ~ occurs t s.
Proof.
  induction s as [|c s IH]; cbn [occursb]; intros H (a & b & E); apply orb_false_iff in H as [H1 H2].
  - symmetry in E. apply app_eq_nil in E as [-> E]. apply app_eq_nil in E as [-> ->]. discriminate H1.
  - destruct a as [|x a].
    + assert (P : prefix_of t (c :: s) = true) by (apply ProofGwySurface.prefix_of_iff; exists b; exact E). congruence.
    + injection E as _ E. apply (IH H2). exists a, b. exact E.
Qed.
Lemma value_line tag v : ~ In 10 (str v) -> v <> ""%string -> line_values tag (element tag v) [str v].
Proof.
  intros N E. unfold element. rewrite <- (app_nil_r (closing tag)) at 1. apply one_value.
  - intros F. apply in_app_or in F as [[F|[F|[]]]|F]; [discriminate F|discriminate F|]. rewrite app_nil_r in F. exact (N F).
  - intros [F|[F|[]]]; discriminate F.
  - intros [].
  - destruct v; [congruence|discriminate].
Qed.
(** the hypotheses of the theorems are met by it *)
Example cag_meets : is_collection plainly [] (two_files "D:/a/b.vk4" "c.vk4") (two_collection "D:/a/b.vk4" "c.vk4").
Proof.
  assert (Nb : forall l, occursb [47; 47] l = false -> (match l with [] => false | c :: _ => negb (c =? 47) end) = true -> normal l).
  { intros l H1 H2. destruct l as [|c l]; [discriminate|]. split; [discriminate|]. split; [|apply occursb_ok, H1]. intros r F. injection F as -> _. discriminate H2. }
  assert (NL : forall tag l, occursb (opening tag) l = false -> existsb (Z.eqb 10) l = false -> line_values tag l []).
  { intros tag l H1 H2. apply no_value; [|apply occursb_ok, H1]. intros F. rewrite <- not_true_iff_false in H2. apply H2. apply existsb_exists. exists 10. auto. }
  unfold is_collection. cbn [k_top k_index k_text k_ids k_originals two_collection].
  split. { intros n H. cbn [map fst two_files In] in H. repeat (destruct H as [<-|H]; [apply Nb; vm_compute; reflexivity|]). destruct H. }
  split. { right. exists (str "Doc"). split; [reflexivity|]. split; [discriminate|]. intros r E. apply (f_equal (@rev Z)) in E. rewrite rev_app_distr in E. discriminate E. }
  split. { eexists. split; [|reflexivity]. exists [(str "Doc/", [])], [(str "Doc/1/data.vk", vk 1); (str "Doc/1/thumb.png", [7; 7]); (str "Doc/2/data.vk", vk 2)]. split; [reflexivity|].
    cbn [map fst In]. intros H. repeat (destruct H as [H|H]; [discriminate H|]). destruct H. }
  split. { intros n H. cbn [map fst two_files In] in H.
    repeat (destruct H as [<-|H]; [split; [intros (f & E & F1 & F2)|intros E; try discriminate E]|]); try (destruct H; fail).
    - exfalso. cbn in E. injection E as E. congruence.
    - reflexivity.
    - exists (str "index.xml"). split; [reflexivity|]. split; [discriminate|]. cbn. intuition discriminate.
    - exfalso. cbn in E. injection E as <-. apply F2. cbn. auto.
    - exfalso. cbn in E. injection E as <-. apply F2. cbn. auto.
    - exfalso. cbn in E. injection E as <-. apply F2. cbn. auto. }
  split. { exists ([str "<List>"] ++ flat_map (fun '(id, o) => [element "Path" id; element "OriginalFileName" o]) [("1", "D:/a/b.vk4"); ("2", "c.vk4")]%string ++ [str "</List>"]), [[]; [str "1"]; []; [str "2"]; []; []].
    split; [reflexivity|]. split; [|reflexivity]. cbn [flat_map app].
    constructor; [apply NL; reflexivity|]. constructor; [apply value_line; [cbn; intuition discriminate|discriminate]|]. constructor; [apply NL; reflexivity|].
    constructor; [apply value_line; [cbn; intuition discriminate|discriminate]|]. constructor; [apply NL; reflexivity|]. constructor; [apply NL; reflexivity|]. constructor. }
  split. { exists ([str "<List>"] ++ flat_map (fun '(id, o) => [element "Path" id; element "OriginalFileName" o]) [("1", "D:/a/b.vk4"); ("2", "c.vk4")]%string ++ [str "</List>"]), [[]; []; [str "D:/a/b.vk4"]; []; [str "c.vk4"]; []].
    split; [reflexivity|]. split; [|reflexivity]. cbn [flat_map app].
    constructor; [apply NL; reflexivity|]. constructor; [apply NL; reflexivity|]. constructor; [apply value_line; [cbn; intuition discriminate|discriminate]|].
    constructor; [apply NL; reflexivity|]. constructor; [apply value_line; [cbn; intuition discriminate|discriminate]|]. constructor; [apply NL; reflexivity|]. constructor. }
  split; [reflexivity|]. split. { repeat constructor; cbn; intuition discriminate. }
  assert (Co : forall s, existsb (Z.eqb 47) s = false -> s <> [] -> s <> [46] -> component s).
  { intros s H1 H2 H3. split; [exact H2|]. split; [exact H3|]. intros F. rewrite <- not_true_iff_false in H1. apply H1. apply existsb_exists. exists 47. auto. }
  assert (Bn : base_name (str "D:/a/b.vk4") (str "b.vk4")) by (split; [apply Co; [reflexivity|discriminate|discriminate]|]; right; exists (str "D:/a"); reflexivity).
  assert (Cn : base_name (str "c.vk4") (str "c.vk4")) by (split; [apply Co; [reflexivity|discriminate|discriminate]|]; left; reflexivity).
  split.
  - intros n b H M. apply measurement_iff in M. cbn [two_files In] in H. repeat (destruct H as [H|H]; [injection H as <- <-; try discriminate M|]); [| |destruct H].
    + exists (str "b.vk4"), (str "1"), (str "data.vk"), (str "D:/a/b.vk4"). cbn [k_top k_ids k_originals two_collection map combine]. split; [reflexivity|]. split; [apply Co; [reflexivity|discriminate|discriminate]|].
      split; [apply Co; [reflexivity|discriminate|discriminate]|]. split; [left; reflexivity|exact Bn].
    + exists (str "c.vk4"), (str "2"), (str "data.vk"), (str "c.vk4"). cbn [k_top k_ids k_originals two_collection map combine]. split; [reflexivity|]. split; [apply Co; [reflexivity|discriminate|discriminate]|].
      split; [apply Co; [reflexivity|discriminate|discriminate]|]. split; [right; left; reflexivity|exact Cn].
  - intros o [<-|[<-|[]]]; eexists; (split; [eassumption|]); (split; [discriminate|]); (split; [intros []|]); cbn; intuition discriminate.
Qed.

(** C85, refuted: of two measurements whose original paths end alike only the later is in the folder; the earlier is lost without an error *)
Theorem C85_cag_same_name_refuted : forall read_text zip beside subfolders (a : archive) (k : collection) (d d' : folder) r before n1 b1 between n2 b2 after name,
  is_collection read_text subfolders a k -> NoDup (map fst d) -> a = before ++ (n1, b1) :: between ++ (n2, b2) :: after ->
  measurement b1 -> measurement b2 -> belongs_to k n1 name -> belongs_to k n2 name -> extract_cag read_text zip beside subfolders a d = (d', r) ->
  r = Ok tt /\ forall b, In (name, b) d' -> exists n, In (n, b) ((n2, b2) :: after).
Proof.
  intros rt zip be subs a k d d' r bf n1 b1 bt n2 b2 af name K N E M1 M2 B1 B2 R. destruct (C85_cag rt zip be subs a k d K N) as (d0 & R0 & _ & H). rewrite R in R0. injection R0 as -> ->. split; [reflexivity|].
  intros b I. apply H in I as [(bf' & n & af' & E' & M & B & F)|[F _]].
  - exists n. destruct (Nat.le_gt_cases (length (bf ++ (n1, b1) :: bt)) (length bf')) as [L|L].
    + assert (Q : skipn (length (bf ++ (n1, b1) :: bt)) a = (n2, b2) :: af) by (rewrite E, app_comm_cons, app_assoc, skipn_app, skipn_all, Nat.sub_diag; reflexivity).
      rewrite <- Q, E', skipn_app. apply in_or_app. right. rewrite (proj2 (Nat.sub_0_le _ _) L). left. reflexivity.
    + exfalso. apply (F n2 b2); [|exact M2|exact B2].
      assert (Q : nth_error a (length (bf ++ (n1, b1) :: bt)) = Some (n2, b2)) by (rewrite E, app_comm_cons, app_assoc, nth_error_app2, Nat.sub_diag by lia; reflexivity).
      rewrite E', nth_error_app2 in Q by lia. destruct (length (bf ++ (n1, b1) :: bt) - length bf')%nat as [|j] eqn:J; [lia|]. cbn [nth_error] in Q. apply nth_error_In in Q. exact Q.
  - exfalso. apply (F n2 b2); [|exact M2|exact B2]. rewrite E. apply in_or_app. right. right. apply in_or_app. right. left. reflexivity.
Qed.
Example cag_same_name : extract_cag plainly (str "x.cag") [] [] (two_files "D:/a/b.vk4" "D:/c/b.vk4") [] = ([(str "b.vk4", vk 2)], Ok tt).
Proof. vm_compute. reflexivity. Qed.
(** C85, refuted: an original path with backslashes (92), as on the microscope's computer, becomes the file name as a whole (where the
    slash separates folders) *)
Theorem C85_cag_backslash_refuted : forall read_text zip beside subfolders (a : archive) (k : collection) (d : folder) n b id file o,
  is_collection read_text subfolders a k -> NoDup (map fst d) -> In (n, b) a -> measurement b -> n = k_top k ++ id ++ [47] ++ file -> component id -> component file ->
  In (id, o) (combine (k_ids k) (k_originals k)) -> component o -> In 92 o ->
  exists d' c, extract_cag read_text zip beside subfolders a d = (d', Ok tt) /\ In (o, c) d'.
Proof.
  intros rt zip be subs a k d n b id file o K N I M E C1 C2 Io Co _. assert (B : belongs_to k n o) by (exists id, file, o; repeat split; auto; apply C1 || apply C2 || apply Co).
  destruct (C85_cag rt zip be subs a k d K N) as (d' & R & _ & H). destruct (last_exists rt zip subs a k K n b o I M B) as (c & L). exists d', c. split; [exact R|]. apply H. left. exact L.
Qed.
Example cag_backslash : extract_cag plainly (str "x.cag") [] [] (two_files "D:\a\b.vk4" "c.vk4") [] = ([(str "D:\a\b.vk4", vk 1); (str "c.vk4", vk 2)], Ok tt).
Proof. vm_compute. reflexivity. Qed.
(** C85, refuted: a measurement without an original name shifts the names of all that follow: each is stored under the next one's name *)
Theorem C85_cag_shift_refuted : forall b1 b2 b3 : bytes, measurement b1 -> measurement b2 -> measurement b3 ->
  extract_cag plainly (str "x.cag") [] []
    [(str "Doc/index.xml", index_of [("1", ""); ("2", "b.vk4"); ("3", "c.vk4")]%string); (str "Doc/1/data.vk", b1); (str "Doc/2/data.vk", b2); (str "Doc/3/data.vk", b3)] [] =
  ([(str "b.vk4", b1); (str "c.vk4", b2)], Err KeyError).
Proof.
  intros b1 b2 b3 M1 M2 M3. apply measurement_iff in M1, M2, M3. unfold extract_cag. set (a := [_; _; _; _]).
  assert (T : idx_table plainly [] a (str "Doc/1/data.vk") = Ok (Some [(str "1", str "b.vk4"); (str "2", str "c.vk4")])).
  { unfold a. unfold idx_table. change (parent_at (str "Doc/1/data.vk")) with (str "Doc/1/"). change (parent_at (str "Doc/1/")) with (str "Doc/").
    change (str "Doc/1/") with (68 :: str "oc/1/"). cbv iota.
    change (files_in _ (str "Doc/")) with [str "Doc/index.xml"]. cbn [map].
    change (amember _ (str "Doc/index.xml")) with (Ok (index_of [("1", ""); ("2", "b.vk4"); ("3", "c.vk4")]%string)). vm_compute. reflexivity. }
  assert (S1 : forall n b ms t d, vk_magic b = true -> extract_members plainly (str "x.cag") [] [] a ((n, b) :: ms) (Some t) d =
    match gget t (at_name (str "x.cag") (parent_at n)) with None => (d, Err KeyError)
    | Some x => match open_for_writing [] x with Err e => (d, Err e) | Ok _ => extract_members plainly (str "x.cag") [] [] a ms (Some t) (gput d x b) end end)
    by (intros n b ms t d M; cbn [extract_members]; rewrite M; reflexivity).
  assert (S0 : forall b ms d, vk_magic b = true -> extract_members plainly (str "x.cag") [] [] a ((str "Doc/1/data.vk", b) :: ms) None d =
    extract_members plainly (str "x.cag") [] [] a ((str "Doc/1/data.vk", b) :: ms) (Some [(str "1", str "b.vk4"); (str "2", str "c.vk4")]) d)
    by (intros b ms d M; cbn [extract_members]; rewrite M, T; reflexivity).
  transitivity (extract_members plainly (str "x.cag") [] [] a [(str "Doc/1/data.vk", b1); (str "Doc/2/data.vk", b2); (str "Doc/3/data.vk", b3)] None []); [reflexivity|].
  rewrite (S0 _ _ _ M1), (S1 _ _ _ _ _ M1).
  change (gget [(str "1", str "b.vk4"); (str "2", str "c.vk4")] (at_name (str "x.cag") (parent_at (str "Doc/1/data.vk")))) with (Some (str "b.vk4")). cbv iota.
  change (open_for_writing [] (str "b.vk4")) with (Ok tt). cbv iota. rewrite (S1 _ _ _ _ _ M2).
  change (gget [(str "1", str "b.vk4"); (str "2", str "c.vk4")] (at_name (str "x.cag") (parent_at (str "Doc/2/data.vk")))) with (Some (str "c.vk4")). cbv iota.
  change (open_for_writing [] (str "c.vk4")) with (Ok tt). cbv iota. rewrite (S1 _ _ _ _ _ M3). reflexivity.
Qed.
(** C85, refuted: an index without line breaks is not understood; and another file beside the index, listed behind it, replaces it *)
Theorem C85_cag_index_refuted :
  extract_cag plainly (str "x.cag") [] []
    [(str "Doc/index.xml", element "Path" "1" ++ element "OriginalFileName" "b.vk4" ++ element "Path" "2" ++ element "OriginalFileName" "c.vk4"); (str "Doc/1/data.vk", vk 1); (str "Doc/2/data.vk", vk 2)] [] =
    ([], Err KeyError) /\
  extract_cag plainly (str "x.cag") [] [] (two_files "b.vk4" "c.vk4" ++ [(str "Doc/notes.txt", str "hello")]) [] = ([], Err KeyError).
Proof. split; vm_compute; reflexivity. Qed.
