(** Further parts of C58, C59, C70, C93 and C103: which names templates accept, the columns of a merged table, outputs without a writer,
    malformed directory listings. *)
From Coq Require Import String ZArith Bool Lia Arith.
From Coq Require Import List.
From Verif Require Import Base ModelBytes ModelUnits ModelSur ModelFormats ModelTemplate ModelBatch ModelTable ProofBytes PropsTemplate.
From Verif Require Import ModelDispatch ModelCli ModelExamples PropsDispatch PropsExamples.
Import ListNotations.
Local Open Scope string_scope.
Local Open Scope list_scope.
Local Open Scope Z_scope.

(** *** C59: the names of the columns and the text between the tokens, in the characters themselves *)
Definition letters : pystr := str "ABCDEFGHIJKLMNOPQRSTUVWXYZabcdefghijklmnopqrstuvwxyz_".
Definition figures : pystr := str "0123456789".
Lemma ascii_cases (f g : Z -> bool) : (forall c, c < 0 \/ 128 <= c -> f c = g c) -> forallb (fun n => Bool.eqb (f (Z.of_nat n)) (g (Z.of_nat n))) (seq 0 128) = true -> forall c, f c = g c.
Proof.
  intros Out In_ c. destruct (Z_lt_le_dec c 0) as [L|L]; [apply Out; lia|]. destruct (Z_lt_le_dec c 128) as [U|U]; [|apply Out; lia].
  rewrite forallb_forall in In_. specialize (In_ (Z.to_nat c)). rewrite Z2Nat.id in In_ by lia. apply eqb_prop. apply In_. apply in_seq. lia.
Qed.
Lemma exists_out c l : forallb (fun x => (0 <=? x) && (x <? 128)) l = true -> c < 0 \/ 128 <= c -> existsb (Z.eqb c) l = false.
Proof.
  intros H O. destruct (existsb (Z.eqb c) l) eqn:E; [|reflexivity]. exfalso. apply existsb_exists in E as (x & Hx & Ex). apply Z.eqb_eq in Ex. subst x.
  rewrite forallb_forall in H. specialize (H c Hx). apply andb_prop in H as [A B]. apply Z.leb_le in A. apply Z.ltb_lt in B. lia.
Qed.
Lemma ident_start_letters c : ident_start c = existsb (Z.eqb c) letters.
Proof.
  revert c. apply ascii_cases; [|vm_compute; reflexivity]. intros c H. rewrite exists_out by (try exact H; vm_compute; reflexivity). unfold ident_start.
  destruct (Z.leb_spec 65 c), (Z.leb_spec c 90), (Z.leb_spec 97 c), (Z.leb_spec c 122), (Z.eqb_spec c 95); cbn [andb orb]; try reflexivity; lia.
Qed.
Lemma is_digit_figures c : is_digit c = existsb (Z.eqb c) figures.
Proof.
  revert c. apply ascii_cases; [|vm_compute; reflexivity]. intros c H. rewrite exists_out by (try exact H; vm_compute; reflexivity). unfold is_digit.
  destruct (Z.leb_spec 48 c), (Z.leb_spec c 57); cbn [andb]; try reflexivity; lia.
Qed.
Lemma exists_in c l : existsb (Z.eqb c) l = true <-> In c l.
Proof. rewrite existsb_exists. split; [intros (x & Hx & E); apply Z.eqb_eq in E; subst; exact Hx|intros H; exists c; split; [exact H|apply Z.eqb_refl]]. Qed.
(** a column name is accepted exactly if it is letters, digits and underscores and does not begin with a digit *)
Theorem C59_names : forall s, identifier s = true <->
  exists c r, s = c :: r /\ In c letters /\ forall x, In x r -> In x letters \/ In x figures.
Proof.
  intros s. unfold identifier. split.
  - destruct s as [|c r]; [discriminate|]. intros H. apply andb_prop in H as [H1 H2]. exists c, r. split; [reflexivity|]. rewrite ident_start_letters in H1. apply exists_in in H1. split; [exact H1|].
    intros x Hx. rewrite forallb_forall in H2. specialize (H2 x Hx). apply orb_prop in H2. rewrite ident_start_letters, is_digit_figures, !exists_in in H2. exact H2.
  - intros (c & r & -> & H1 & H2). apply andb_true_intro. split; [rewrite ident_start_letters; apply exists_in, H1|]. apply forallb_forall. intros x Hx.
    rewrite ident_start_letters, is_digit_figures. apply orb_true_intro. rewrite !exists_in. apply H2, Hx.
Qed.
Theorem C59_name_error : forall s n t f, parse_template s = Ok ([t], [[]; []]) -> t_name t = n -> (exists e, kind_of (t_dtype t) = Ok e) -> t_prefix t = [] -> t_suffix t = [] -> ~ In 62 n ->
  ~ (exists c r, n = c :: r /\ In c letters /\ forall x, In x r -> In x letters \/ In x figures) ->
  extract s f = Some (Err (OtherError "re.error")).
Proof.
  intros s n t f P En (k & Ek) Ep Es Hn Bad. unfold extract. rewrite P. unfold construct_regex. cbn [rmapl]. unfold pattern_of. rewrite Ek, Ep, Es, En. cbn [rbind rmap interleave app last].
  rewrite !app_nil_r. unfold group_re.
  assert (B : identifier n = false) by (destruct (identifier n) eqn:E; [exfalso; apply Bad, C59_names, E|reflexivity]).
  assert (U : forall r, until 62 (n ++ 62 :: r) = Some (n, r)).
  { intros r. clear -Hn. induction n as [|x n IH]; cbn [app until]; [reflexivity|]. destruct (Z.eqb_spec x 62) as [->|]; [exfalso; apply Hn; left; reflexivity|]. rewrite IH by (intros C; apply Hn; right; exact C). reflexivity. }
  assert (C : compile (S (length (str "(?P<" ++ n ++ [62] ++ type_re k ++ [41]))) (str "(?P<" ++ n ++ [62] ++ type_re k ++ [41]) = Some [IGroup n k]).
  { set (len := length _). assert (L : (2 <= S len)%nat) by (unfold len; rewrite app_length; cbn; lia). clearbody len. destruct len as [|len]; [lia|].
    change (str "(?P<" ++ n ++ [62] ++ type_re k ++ [41]) with (40 :: 63 :: 80 :: 60 :: (n ++ 62 :: (type_re k ++ [41]))).
    change (compile (S (S len)) (40 :: 63 :: 80 :: 60 :: (n ++ 62 :: (type_re k ++ [41])))) with
      (match until 62 (n ++ 62 :: (type_re k ++ [41])) with None => None | Some (name, r') => match group_body r' with None => None | Some (k0, r'') => option_map (cons (IGroup name k0)) (compile (S len) r'') end end).
    rewrite U. destruct k; reflexivity. }
  rewrite C. cbn [map forallb]. rewrite En, B. reflexivity.
Qed.
Theorem C59_literals : forall s, literal s <-> forall c, In c s -> ~ In c (str "^$*+?{}[]\|()").
Proof.
  intros s. unfold literal, special.
  assert (E : forall c, existsb (Z.eqb c) [94; 36; 42; 43; 63; 123; 125; 91; 93; 92; 124; 40; 41] = existsb (Z.eqb c) (str "^$*+?{}[]\|()")) by (intros c; reflexivity).
  split; intros H c Hc; specialize (H c Hc).
  - intros C. apply exists_in in C. unfold special in H. rewrite E in H. congruence.
  - rewrite E. destruct (existsb _ _) eqn:X; [|reflexivity]. exfalso. apply H, exists_in, X.
Qed.
(** a '.' between two tokens matches every character but a line break *)
Theorem C59_dot : forall c, c <> 10 ->
  rematch [IAny] [c] = Some [] /\ rematch [IAny] [10] = None /\ extract (str "<a|int>.<b|int>") (str "1" ++ [10] ++ str "3") = Some (Err ValueError).
Proof.
  intros c H. split; [cbn [rematch]; destruct (Z.eqb_spec c 10); [lia|reflexivity]|]. split; [reflexivity|vm_compute; reflexivity].
Qed.

(** *** C93: the columns of the merged table *)
Definition merged_names (left_ right_ : list string) : list string :=
  map (fun c => if string_dec c "file" then c else if in_dec string_dec c right_ then (c ++ "_x")%string else c) left_ ++
  map (fun c => if in_dec string_dec c left_ then (c ++ "_y")%string else c) (List.filter (fun c => if string_dec c "file" then false else true) right_).
Lemma in_others c l : c <> "file"%string -> existsb (String.eqb c) (others l) = (if in_dec string_dec c l then true else false).
Proof.
  intros Hc. unfold others. destruct (in_dec string_dec c l) as [I|I].
  - apply existsb_exists. exists c. split; [apply filter_In; split; [exact I|]; apply negb_true_iff, String.eqb_neq, Hc|apply String.eqb_refl].
  - destruct (existsb _ _) eqn:E; [|reflexivity]. exfalso. apply existsb_exists in E as (x & Hx & Ex). apply String.eqb_eq in Ex. subst x. apply filter_In in Hx as [Hx _]. exact (I Hx).
Qed.
Theorem C93_merged_columns {V} (veqb : V -> V -> bool) (nan : V) cols rows results f :
  table_frame veqb nan (Some (cols, rows)) results = Ok f -> map fst f = map str (merged_names cols (columns results)).
Proof.
  unfold table_frame. destruct (construct_dataframe veqb nan (Some (cols, rows)) results) as [rs|]; [|discriminate]. cbn [rmap fst]. intros E.
  assert (f = to_frame nan (merge_columns cols (columns results)) rs) as -> by congruence. clear E. unfold to_frame. rewrite map_map. cbn [fst].
  rewrite (map_ext _ str) by reflexivity. f_equal. unfold merge_columns, merged_names. f_equal.
  - apply map_ext. intros c. destruct (String.eqb_spec c "file") as [E|N], (string_dec c "file"); try contradiction; [reflexivity|].
    unfold renamed. rewrite in_others by exact N. destruct (in_dec string_dec c (columns results)); reflexivity.
  - assert (F : others (columns results) = List.filter (fun c => if string_dec c "file" then false else true) (columns results)).
    { unfold others. apply filter_ext. intros c. destruct (String.eqb_spec c "file"), (string_dec c "file"); try contradiction; reflexivity. }
    rewrite F. apply map_ext_in. intros c Hc. apply filter_In in Hc as [_ Hc]. unfold renamed. rewrite in_others by (destruct (string_dec c "file"); [discriminate|assumption]). destruct (in_dec string_dec c cols); reflexivity.
Qed.
Theorem C93_merge_no_files {V} (veqb : V -> V -> bool) (nan : V) a : table_frame veqb nan (Some a) [] = Err KeyError.
Proof. reflexivity. Qed.

(** *** C70: an output name without a writer *)
Theorem C70_output_names : forall j, ~ In (path_suffix (j_out j)) (map fst writers) ->
  (path_suffix (j_out j) = [] -> job_result j = Err ValueError) /\ (path_suffix (j_out j) <> [] -> job_result j = Err UnsupportedFileFormatError).
Proof.
  intros j H. unfold job_result. assert (N : assoc (path_suffix (j_out j)) writers = None).
  { clear -H. induction writers as [|[k v] w IH]; [reflexivity|]. cbn [assoc map fst] in *. destruct (zs_eqb (path_suffix (j_out j)) k) eqn:E.
    - exfalso. apply H. left. apply zs_eqb_eq in E. symmetry. exact E.
    - apply IH. intros C. apply H. right. exact C. }
  rewrite N. split; intros E.
  - rewrite E. reflexivity.
  - apply zs_eqb_false in E. rewrite E. reflexivity.
Qed.

(** *** C103: a directory entry without a name or an address *)
Theorem C103_malformed : forall l1 d l2 fs fmt, Forall2 describes l1 fs ->
  assoc (str "name") d = None \/ (exists n, assoc (str "name") d = Some n) /\ assoc (str "download_url") d = None ->
  list_examples (Some (JArr (l1 ++ JObj d :: l2))) fmt = Err KeyError.
Proof.
  intros l1 d l2 fs fmt H M. unfold list_examples. cbn [jiter rbind].
  replace (each _ (l1 ++ JObj d :: l2)) with (@Err (list example) KeyError); [reflexivity|]. symmetry.
  assert (C : forall (f : json -> res example) x l, each f (x :: l) = rbind (f x) (fun y => rbind (each f l) (fun ys => Ok (y :: ys)))) by reflexivity.
  induction H as [|j f l1 fs (d0 & -> & N & U) _ IH]; cbn [app]; rewrite C; cbn [jitem].
  - destruct M as [M|[[n M1] M2]]; [rewrite M; reflexivity|]. rewrite M1. cbn [rbind]. rewrite M2. reflexivity.
  - rewrite N. cbn [rbind]. rewrite U. cbn [rbind]. rewrite IH. reflexivity.
Qed.
