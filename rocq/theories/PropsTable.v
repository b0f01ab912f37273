(** C93, C94: the result table of a batch and the columns read from file names (surfalize/batch.py:155-272, 725-744, 767-845). *)
From Coq Require Import String ZArith Bool Lia Arith.
From Coq Require Import List Permutation.
From Verif Require Import Base ModelBytes ModelUnits ModelSur ModelFormats ModelTemplate ModelBatch ProofBytes PropsLayout PropsBatch PropsTemplate ModelTable.
Import ListNotations.
Local Open Scope string_scope.
Local Open Scope list_scope.
Local Open Scope Z_scope.

(** *** Column lists *)
Lemma zs_eqb_neq a b : a <> b -> zs_eqb a b = false.
Proof. intros N. destruct (zs_eqb a b) eqn:E; [|reflexivity]. apply zs_eqb_eq in E. contradiction. Qed.
Lemma zs_sym a b : zs_eqb a b = zs_eqb b a.
Proof.
  destruct (zs_eqb b a) eqn:E.
  - apply zs_eqb_eq in E. subst. apply zs_eqb_refl.
  - apply zs_eqb_neq. intros ->. rewrite zs_eqb_refl in E. discriminate.
Qed.
Lemma mem_in c l : existsb (zs_eqb c) l = true <-> In c l.
Proof.
  rewrite existsb_exists. split.
  - intros (x & H & E). apply zs_eqb_eq in E. subst. exact H.
  - intros H. exists c. split; [exact H|apply zs_eqb_refl].
Qed.
Lemma mem_not c l : existsb (zs_eqb c) l = false <-> ~ In c l.
Proof. rewrite <- mem_in. destruct (existsb (zs_eqb c) l); split; congruence. Qed.
Lemma in_names_dec (c : pystr) l : {In c l} + {~ In c l}.
Proof. destruct (existsb (zs_eqb c) l) eqn:E; [left; apply mem_in; exact E|right; apply mem_not; exact E]. Qed.

Section Frames.
Context {V : Type}.
Implicit Types f : frame V.
Lemma fget_none c f : fget c f = None <-> ~ In c (names f).
Proof.
  induction f as [|[k v] f IH]; cbn [fget names map fst]; [split; auto|]. destruct (zs_eqb c k) eqn:E.
  - apply zs_eqb_eq in E. subst k. split; [discriminate|]. intros H. exfalso. apply H. left. reflexivity.
  - rewrite IH. unfold names. split.
    + intros H [<-|Hi]; [rewrite zs_eqb_refl in E; discriminate|auto].
    + intros H Hi. apply H. right. exact Hi.
Qed.
Lemma fget_some c f : In c (names f) -> exists v, fget c f = Some v.
Proof. intros H. destruct (fget c f) eqn:E; [eauto|]. apply fget_none in E. contradiction. Qed.
Lemma fget_app c f g : fget c (f ++ g) = match fget c f with Some v => Some v | None => fget c g end.
Proof. induction f as [|[k v] f IH]; cbn [app fget]; [reflexivity|]. destruct (zs_eqb c k); [reflexivity|exact IH]. Qed.
Lemma fget_set_same c v f : fget c (fset c v f) = Some v.
Proof.
  induction f as [|[k w] f IH]; cbn [fset fget]; [rewrite zs_eqb_refl; reflexivity|]. destruct (zs_eqb c k) eqn:E; cbn [fget]; rewrite E; [reflexivity|exact IH].
Qed.
Lemma fget_set_other c d v f : c <> d -> fget d (fset c v f) = fget d f.
Proof.
  intros N. induction f as [|[k w] f IH]; cbn [fset fget].
  - rewrite zs_eqb_neq by congruence. reflexivity.
  - destruct (zs_eqb c k) eqn:E; cbn [fget].
    + apply zs_eqb_eq in E. subst k. rewrite !(zs_eqb_neq d c) by congruence. reflexivity.
    + destruct (zs_eqb d k); [reflexivity|exact IH].
Qed.
Lemma names_set_in c v f : In c (names f) -> names (fset c v f) = names f.
Proof.
  induction f as [|[k w] f IH]; cbn [fset names map fst]; [intros []|]. intros H. destruct (zs_eqb c k) eqn:E; cbn [map fst]; [reflexivity|].
  f_equal. apply IH. destruct H as [->|H]; [rewrite zs_eqb_refl in E; discriminate|exact H].
Qed.
Lemma names_set_new c v f : ~ In c (names f) -> names (fset c v f) = names f ++ [c].
Proof.
  induction f as [|[k w] f IH]; cbn [fset names map fst app]; [reflexivity|]. intros H.
  rewrite zs_eqb_neq by (intros ->; apply H; left; reflexivity). cbn [map fst]. f_equal. apply IH. intros Hi. apply H. right. exact Hi.
Qed.
Lemma names_app f g : names (f ++ g) = names f ++ names g.
Proof. apply map_app. Qed.
Lemma names_insert i c v f : names (insert i c v f) = firstn i (names f) ++ c :: skipn i (names f).
Proof. unfold insert. rewrite names_app. unfold names. cbn [map fst]. rewrite <- firstn_map, <- skipn_map. reflexivity. Qed.
Lemma fget_insert_other i c v f d : c <> d -> fget d (insert i c v f) = fget d f.
Proof.
  intros N. unfold insert. rewrite fget_app. cbn [fget]. rewrite zs_eqb_neq by congruence. rewrite <- fget_app, firstn_skipn. reflexivity.
Qed.
Lemma get_loc_spec c f i : get_loc c f = Some i -> (i < length f)%nat /\ nth_error (names f) i = Some c.
Proof.
  revert i. induction f as [|[k v] f IH]; intros i; cbn [get_loc]; [discriminate|]. destruct (zs_eqb c k) eqn:E.
  - intros H. injection H as <-. apply zs_eqb_eq in E. subst k. cbn. split; [lia|reflexivity].
  - destruct (get_loc c f) as [j|]; cbn [option_map]; [|discriminate]. intros H. injection H as <-. destruct (IH j eq_refl) as [A B]. cbn. split; [lia|exact B].
Qed.
Lemma get_loc_in c f : In c (names f) -> exists i, get_loc c f = Some i.
Proof.
  induction f as [|[k v] f IH]; [intros []|]. cbn [names map fst get_loc]. intros H. destruct (zs_eqb c k) eqn:E; [eauto|].
  destruct H as [->|H]; [rewrite zs_eqb_refl in E; discriminate|]. destruct (IH H) as [i Ei]. exists (S i). rewrite Ei. reflexivity.
Qed.

Definition fresh f (cols : list pystr) : list pystr := List.filter (fun c => negb (existsb (zs_eqb c) (names f))) cols.
Lemma fresh_in f cols c : In c (fresh f cols) <-> In c cols /\ ~ In c (names f).
Proof. unfold fresh. rewrite filter_In, negb_true_iff, mem_not. reflexivity. Qed.
Lemma filter_rev {A} (p : A -> bool) l : List.filter p (rev l) = rev (List.filter p l).
Proof.
  induction l as [|x l IH]; [reflexivity|]. cbn [rev List.filter]. rewrite filter_app, IH. cbn [List.filter].
  destruct (p x); cbn [rev]; [reflexivity|apply app_nil_r].
Qed.
Variable blank : V.
Let step i rows := fun f c => if existsb (zs_eqb c) (names f) then f else insert i c (repeat blank rows) f.
Lemma insert_fold i rows l : forall f, (i <= length f)%nat -> NoDup l ->
  names (fold_left (step i rows) l f) = firstn i (names f) ++ rev (fresh f l) ++ skipn i (names f) /\
  (forall d, In d (names f) -> fget d (fold_left (step i rows) l f) = fget d f).
Proof.
  induction l as [|c l IH]; intros f Hi Hd; cbn [fold_left].
  - cbn [fresh List.filter rev app]. split; [symmetry; apply firstn_skipn|reflexivity].
  - apply NoDup_cons_iff in Hd. destruct Hd as [Hc Hd]. unfold fresh. cbn [List.filter]. unfold step at 2 4. destruct (existsb (zs_eqb c) (names f)) eqn:E; cbn [negb].
    + exact (IH f Hi Hd).
    + set (f1 := insert i c (repeat blank rows) f).
      assert (L1 : length f1 = S (length f)).
      { unfold f1, insert. rewrite app_length. cbn [length]. rewrite firstn_length, skipn_length. lia. }
      destruct (IH f1 ltac:(lia) Hd) as [A B].
      assert (N1 : names f1 = firstn i (names f) ++ c :: skipn i (names f)) by (unfold f1; apply names_insert).
      assert (Lf : length (firstn i (names f)) = i) by (rewrite firstn_length; unfold names; rewrite map_length; lia).
      assert (P1 : firstn i (names f1) = firstn i (names f)).
      { rewrite N1, firstn_app, Lf, Nat.sub_diag. cbn [firstn]. rewrite app_nil_r. apply firstn_all2. lia. }
      assert (P2 : skipn i (names f1) = c :: skipn i (names f)).
      { rewrite N1, skipn_app, Lf, Nat.sub_diag. cbn [skipn]. rewrite skipn_all2 by lia. reflexivity. }
      assert (Fr : fresh f1 l = List.filter (fun c => negb (existsb (zs_eqb c) (names f))) l).
      { unfold fresh. apply filter_ext_in. intros d Hdl. f_equal. rewrite N1.
        destruct (existsb (zs_eqb d) (names f)) eqn:E1.
        - apply mem_in. apply mem_in in E1. rewrite <- (firstn_skipn i (names f)) in E1. apply in_app_or in E1. apply in_or_app. cbn [In]. tauto.
        - apply mem_not. apply mem_not in E1. intros H. apply in_app_or in H. destruct H as [H|[H|H]].
          + apply E1. rewrite <- (firstn_skipn i (names f)). apply in_or_app. left. exact H.
          + subst d. contradiction.
          + apply E1. rewrite <- (firstn_skipn i (names f)). apply in_or_app. right. exact H. }
      split.
      * rewrite A, P1, P2, Fr. cbn [rev]. rewrite <- !app_assoc. reflexivity.
      * intros d Hdn. rewrite B.
        -- unfold f1. apply fget_insert_other. intros ->. apply mem_not in E. contradiction.
        -- rewrite N1. rewrite <- (firstn_skipn i (names f)) in Hdn. apply in_app_or in Hdn. apply in_or_app. cbn [In]. tauto.
Qed.
Lemma insert_all_spec i rows cols f : (i <= length f)%nat -> NoDup cols ->
  names (insert_all blank i rows cols f) = firstn i (names f) ++ fresh f cols ++ skipn i (names f) /\
  (forall d, In d (names f) -> fget d (insert_all blank i rows cols f) = fget d f).
Proof.
  intros Hi Hd. unfold insert_all. destruct (insert_fold i rows (rev cols) f Hi (NoDup_rev Hd)) as [A B]. split; [|exact B].
  unfold step in A. rewrite A. f_equal. f_equal. unfold fresh. rewrite filter_rev, rev_involutive. reflexivity.
Qed.
Lemma set_fold (cols : list (pystr * list V)) : forall f, NoDup (map fst cols) ->
  let f' := fold_left (fun f p => fset (fst p) (snd p) f) cols f in
  names f' = names f ++ fresh f (map fst cols) /\
  (forall d, ~ In d (map fst cols) -> fget d f' = fget d f) /\
  (forall c v, In (c, v) cols -> fget c f' = Some v).
Proof.
  induction cols as [|[c v] cols IH]; intros f Hd; cbn [fold_left fst snd map].
  - cbn. rewrite app_nil_r. repeat split; auto. intros c v [].
  - cbn [map fst] in Hd. apply NoDup_cons_iff in Hd. destruct Hd as [Hc Hd]. destruct (IH (fset c v f) Hd) as (A & B & C). cbn zeta in A, B, C. cbn zeta. split; [|split].
    + rewrite A. unfold fresh. cbn [List.filter]. destruct (existsb (zs_eqb c) (names f)) eqn:E; cbn [negb].
      * apply mem_in in E. rewrite (names_set_in c v f E). reflexivity.
      * apply mem_not in E. rewrite (names_set_new c v f E), <- app_assoc. cbn [app]. f_equal. f_equal. apply filter_ext_in. intros d Hdi. f_equal.
        destruct (existsb (zs_eqb d) (names f)) eqn:E1.
        -- apply mem_in. apply mem_in in E1. apply in_or_app. left. exact E1.
        -- apply mem_not. apply mem_not in E1. intros H. apply in_app_or in H. destruct H as [H|[H|[]]]; [contradiction|]. subst d. contradiction.
    + intros d Hdn. rewrite B by (intros H; apply Hdn; right; exact H). apply fget_set_other. intros ->. apply Hdn. left. reflexivity.
    + intros c1 v1 [H|H].
      * injection H as <- <-. rewrite B by exact Hc. apply fget_set_same.
      * apply C. exact H.
Qed.
End Frames.

Lemma ok_inj {A} (x y : A) : Ok x = Ok y -> x = y.
Proof. congruence. Qed.
(** *** Extraction, column by column and row by row *)
Lemma rmapl_spec {A B} (g : A -> res B) l : forall ys, rmapl g l = Ok ys <-> Forall2 (fun x y => g x = Ok y) l ys.
Proof.
  induction l as [|x l IH]; intros ys; cbn [rmapl].
  - split; [intros H; apply ok_inj in H; subst; constructor|intros H; inversion H; reflexivity].
  - split.
    + destruct (g x) as [y|e] eqn:E; cbn [rbind]; [|discriminate]. destruct (rmapl g l) as [ys'|e] eqn:E2; cbn [rmap]; [|discriminate].
      intros H. apply ok_inj in H. subst ys. constructor; [exact E|apply IH; reflexivity].
    + intros H. inversion H as [|x0 y l0 ys' H1 H2]; subst. rewrite H1. cbn [rbind]. apply IH in H2. rewrite H2. reflexivity.
Qed.
Lemma Forall2_nth {A B} (P : A -> B -> Prop) l ys : Forall2 P l ys -> forall i x, nth_error l i = Some x -> exists y, nth_error ys i = Some y /\ P x y.
Proof.
  induction 1 as [|x y l ys H1 H IH]; intros i x0; destruct i as [|i]; cbn [nth_error]; try discriminate.
  - intros E. injection E as <-. eauto.
  - apply IH.
Qed.
Lemma F2_length {A B} (P : A -> B -> Prop) l ys : Forall2 P l ys -> length l = length ys.
Proof. induction 1; cbn; congruence. Qed.
Lemma distinct_spec l : distinct l = true -> NoDup l.
Proof.
  induction l as [|x l IH]; [constructor|]. cbn [distinct]. intros H. apply andb_prop in H. destruct H as [H1 H2]. apply negb_true_iff in H1. constructor; [|auto].
  apply mem_not. exact H1.
Qed.
Lemma distinct_nodup l : distinct l = true <-> NoDup l.
Proof. split; [apply distinct_spec|apply distinct_ok]. Qed.

(** the names of the parameters of a template, in order *)
Definition parameter_names (template : pystr) (ns : list pystr) : Prop :=
  exists tokens seps, parse_template template = Ok (tokens, seps) /\ ns = map t_name tokens.

Section Extraction.
Context {V : Type}.
Variable text : V -> option pystr.
Variable of_cell : cellv -> V.
Variable blank : V.
Implicit Types f : frame V.

(** the cells of a column are these file names *)
Definition holds_files (cells : list V) (files : list pystr) : Prop := map text cells = map Some files.
Lemma holds_found items cells files : holds_files cells files ->
  map (fun v => match text v with Some s => research items s | None => None end) cells = map (research items) files.
Proof.
  intros H. revert files H. unfold holds_files. induction cells as [|v cells IH]; intros [|s files] H; cbn [map] in *; try discriminate; [reflexivity|].
  injection H as H1 H2. rewrite H1, (IH files H2). reflexivity.
Qed.
(** what the template says about one file name (C59) *)
Definition row_of (i : nat) (cols : list (pystr * list cellv)) : list (pystr * cellv) := map (fun p => (fst p, nth i (snd p) CNaN)) cols.
(** The table holds, for every file, exactly what the template extracts from that file's name. *)
Lemma extract_rows (template column : pystr) f cells files cols :
  fget column f = Some cells -> holds_files cells files ->
  extract_from text template column f = Some (Ok cols) ->
  parameter_names template (map fst cols) /\ NoDup (map fst cols) /\
  Forall (fun p => length (snd p) = length files) cols /\
  forall i file, nth_error files i = Some file -> extract template file = Some (Ok (row_of i cols)).
Proof.
  intros Hf Hh. unfold extract_from, extract, parameter_names.
  destruct (parse_template template) as [[tokens seps]|e] eqn:Ep; [|discriminate].
  destruct (construct_regex tokens seps) as [re|e] eqn:Er; [|discriminate]. rewrite Hf. destruct (compile (S (length re)) re) as [items|] eqn:Ec; [|discriminate].
  destruct (negb (forallb identifier (map t_name tokens) && distinct (map t_name tokens))) eqn:Eb; [discriminate|].
  destruct (Nat.eqb (length tokens) 0) eqn:El; [discriminate|]. rewrite (holds_found items cells files Hh). intros H.
  assert (H0 : Forall2 (fun t p => rbind (kind_of (t_dtype t)) (fun k =>
                             rmap (pair (t_name t)) (rmapl (fun g => convert_cell k (group_text g (t_name t))) (map (research items) files))) = Ok p) tokens cols).
  { apply rmapl_spec. congruence. } clear H.
  assert (En : map fst cols = map t_name tokens).
  { clear -H0. induction H0 as [|t p tokens cols H1 H0 IH]; [reflexivity|]. cbn [map]. rewrite IH. f_equal.
    destruct (kind_of (t_dtype t)); cbn [rbind] in H1; [|discriminate]. apply rmap_ok in H1. destruct H1 as (x & _ & ->). reflexivity. }
  split; [exists tokens, seps; auto|]. split.
  { rewrite En. apply negb_false_iff, andb_prop in Eb. apply distinct_spec. apply Eb. }
  split.
  { clear -H0. induction H0 as [|t p tokens cols H1 H0 IH]; constructor; [|exact IH].
    destruct (kind_of (t_dtype t)); cbn [rbind] in H1; [|discriminate]. apply rmap_ok in H1. destruct H1 as (x & H1 & ->). cbn [snd].
    apply rmapl_spec in H1. apply F2_length in H1. rewrite map_length in H1. lia. }
  intros i file Hi. f_equal. apply rmapl_spec. clear -H0 Hi. unfold row_of. induction H0 as [|t p tokens cols H1 H0 IH]; cbn [map]; constructor; [|exact IH].
  destruct (kind_of (t_dtype t)) as [k|]; cbn [rbind] in *; [|discriminate]. apply rmap_ok in H1. destruct H1 as (x & H1 & ->). cbn [fst snd].
  apply rmapl_spec in H1. destruct (Forall2_nth _ _ _ H1 i (research items file)) as (y & Hy & E); [rewrite nth_error_map, Hi; reflexivity|].
  cbn beta in E. rewrite E. cbn [rmap]. rewrite (nth_error_nth _ _ CNaN Hy). reflexivity.
Qed.
Lemma extract_total (template column : pystr) f cells files :
  fget column f = Some cells -> holds_files cells files -> files <> [] ->
  (forall file, In file files -> exists row, extract template file = Some (Ok row)) ->
  exists cols, extract_from text template column f = Some (Ok cols).
Proof.
  intros Hf Hh Hne Hall. destruct files as [|f0 fs]; [contradiction|]. set (files := f0 :: fs) in *.
  assert (H0 : In f0 files) by (left; reflexivity). destruct (Hall f0 H0) as [row0 E0]. unfold extract_from. unfold extract in Hall, E0.
  destruct (parse_template template) as [[tokens seps]|e] eqn:Ep; [|discriminate].
  destruct (construct_regex tokens seps) as [re|e] eqn:Er; [|discriminate]. rewrite Hf. destruct (compile (S (length re)) re) as [items|] eqn:Ec; [|discriminate].
  destruct (negb (forallb identifier (map t_name tokens) && distinct (map t_name tokens))) eqn:Eb; [discriminate|].
  destruct (Nat.eqb (length tokens) 0) eqn:El; [discriminate|]. rewrite (holds_found items cells files Hh).
  assert (G : forall ts, (forall t, In t ts -> In t tokens) -> exists cols, rmapl (fun t => rbind (kind_of (t_dtype t)) (fun k =>
     rmap (pair (t_name t)) (rmapl (fun g => convert_cell k (group_text g (t_name t))) (map (research items) files)))) ts = Ok cols).
  { induction ts as [|t ts IH]; intros Hin; [exists []; reflexivity|]. destruct (IH (fun x Hx => Hin x (or_intror Hx))) as [cols Ecs]. cbn [rmapl]. rewrite Ecs.
    assert (Tv : forall file, In file files -> exists k v, kind_of (t_dtype t) = Ok k /\ convert_cell k (group_text (research items file) (t_name t)) = Ok v).
    { intros file Hfile. destruct (Hall file Hfile) as [row E]. assert (E1 : Forall2 (fun t p => rbind (kind_of (t_dtype t)) (fun k =>
                           rmap (pair (t_name t)) (convert_cell k (group_text (research items file) (t_name t)))) = Ok p) tokens row) by (apply rmapl_spec; congruence).
      destruct (In_nth_error tokens t (Hin t (or_introl eq_refl))) as [j Hj]. destruct (Forall2_nth _ _ _ E1 j t Hj) as (p & _ & Ep2).
      destruct (kind_of (t_dtype t)) as [k|]; cbn [rbind] in Ep2; [|discriminate]. apply rmap_ok in Ep2. destruct Ep2 as (v & Ev & _). eauto. }
    destruct (Tv f0 H0) as (k & _ & Ek & _). rewrite Ek. cbn [rbind].
    assert (R : exists vs, rmapl (fun g => convert_cell k (group_text g (t_name t))) (map (research items) files) = Ok vs).
    { clear -Tv Ek. induction files as [|s l IH]; [exists []; reflexivity|]. destruct (IH (fun x Hx => Tv x (or_intror Hx))) as [vs E].
      destruct (Tv s (or_introl eq_refl)) as (k' & v & Ek' & Ev). assert (k' = k) by congruence. subst k'. exists (v :: vs). cbn [map rmapl]. rewrite Ev. cbn [rbind]. rewrite E. reflexivity. }
    destruct R as [vs Ev]. rewrite Ev. cbn [rmap rbind]. eauto. }
  destruct (G tokens (fun t H => H)) as [cols E]. exists cols. rewrite E. reflexivity.
Qed.
End Extraction.

Section Apply.
Context {V : Type}.
Variable text : V -> option pystr.
Variable of_cell : cellv -> V.
Variable blank : V.
Implicit Types f : frame V.
Notation apply_on := (apply_on text of_cell blank).
Notation holds_files := (holds_files text).

Lemma apply_inv (template column : pystr) (after : bool) f f' :
  apply_on template column after f = Some (Ok f') ->
  exists cols cells, extract_from text template column f = Some (Ok cols) /\ fget column f = Some cells /\ ~ In (str "self") (map fst cols) /\
    f' = fold_left (fun f p => fset (fst p) (snd p) f) (map (fun p => (fst p, map of_cell (snd p))) cols)
           (if after then match get_loc column f with Some i => insert_all blank (S i) (length cells) (map fst cols) f | None => f end else f).
Proof.
  unfold ModelTable.apply_on. destruct (extract_from text template column f) as [[cols|e]|] eqn:Ex; cbn [option_map rbind]; [|discriminate|discriminate].
  assert (Hc : exists cells, fget column f = Some cells).
  { unfold extract_from in Ex. destruct (parse_template template) as [[tokens seps]|]; [|discriminate]. destruct (construct_regex tokens seps); [|discriminate].
    destruct (fget column f); [eauto|discriminate]. }
  destruct Hc as [cells Hc]. rewrite Hc. intros H. exists cols, cells. split; [reflexivity|]. split; [reflexivity|].
  unfold assign in H. rewrite map_map in H. cbn [fst] in H. destruct (existsb (zs_eqb (str "self")) (map (fun x => fst x) cols)) eqn:E; [discriminate|].
  split; [apply mem_not; exact E|]. destruct after; [|congruence]. destruct (get_loc column f); congruence.
Qed.
(** the columns of a table that are not yet in another *)
Definition is_filter_of {A} (P : A -> Prop) (sub l : list A) : Prop := (* the elements of l with P, in their order *)
  exists p, (forall x, p x = true <-> P x) /\ sub = List.filter p l.

(** *** C93: apply_on adds one column per parameter, right behind the file name, with the value of every row's own file name, and
    leaves every other column alone. *)
Theorem C93_table (template column : pystr) (after : bool) f f' cells files :
  NoDup (names f) -> fget column f = Some cells -> holds_files cells files ->
  apply_on template column after f = Some (Ok f') ->
  exists before behind ns added,
    parameter_names template ns /\ NoDup ns /\
    names f = before ++ column :: behind /\ is_filter_of (fun c => ~ In c (names f)) added ns /\
    names f' = (if after then before ++ column :: added ++ behind else (before ++ column :: behind) ++ added) /\
    (forall c, ~ In c ns -> fget c f' = fget c f) /\
    (forall c, In c ns -> exists vs, fget c f' = Some (map of_cell vs) /\ length vs = length files /\
       forall i file, nth_error files i = Some file -> exists row, extract template file = Some (Ok row) /\ In (c, nth i vs CNaN) row).
Proof.
  intros Hn Hc Hh Ha. destruct (apply_inv _ _ _ _ _ Ha) as (cols & cells' & Ex & Hc' & Hs & ->).
  assert (cells' = cells) by congruence. subst cells'. destruct (extract_rows text template column f cells files cols Hc Hh Ex) as (Hp & Hd & Hl & Hr).
  assert (Hi : In column (names f)). { destruct (in_names_dec column (names f)) as [H|H]; [exact H|]. apply fget_none in H. congruence. }
  destruct (get_loc_in column f Hi) as [i Ei]. rewrite Ei. destruct (get_loc_spec column f i Ei) as [Li Ni].
  set (cs := map (fun p => (fst p, map of_cell (snd p))) cols).
  assert (Ecs : map fst cs = map fst cols) by (unfold cs; rewrite map_map; reflexivity).
  assert (Hds : NoDup (map fst cs)) by (rewrite Ecs; exact Hd).
  set (before := firstn i (names f)). set (behind := skipn (S i) (names f)).
  assert (Enm : names f = before ++ column :: behind).
  { unfold before, behind. rewrite <- (firstn_skipn i (names f)) at 1. f_equal. clear -Ni. revert i Ni. generalize (names f) as l. induction l as [|x l IH]; intros [|i] H; cbn in *; try discriminate; [congruence|]. apply IH. exact H. }
  exists before, behind, (map fst cols), (fresh f (map fst cols)). split; [exact Hp|]. split; [exact Hd|]. split; [exact Enm|].
  split. { exists (fun c => negb (existsb (zs_eqb c) (names f))). split; [|reflexivity]. intros x. rewrite negb_true_iff. apply mem_not. }
  set (f1 := if after then insert_all blank (S i) (length cells) (map fst cols) f else f).
  assert (F1 : names f1 = (if after then before ++ column :: fresh f (map fst cols) ++ behind else names f) /\ (forall d, In d (names f) -> fget d f1 = fget d f) /\
               (forall d, ~ In d (map fst cols) -> fget d f1 = fget d f)).
  { unfold f1. destruct after; [|auto]. destruct (insert_all_spec blank (S i) (length cells) (map fst cols) f ltac:(lia) Hd) as [A B].
    assert (A' : names (insert_all blank (S i) (length cells) (map fst cols) f) = before ++ column :: fresh f (map fst cols) ++ behind).
    { rewrite A. fold behind. replace (firstn (S i) (names f)) with (before ++ [column]).
      - rewrite <- app_assoc. reflexivity.
      - rewrite Enm. assert (Lb : length before = i). { unfold before. rewrite firstn_length. unfold names. rewrite map_length. lia. }
        rewrite firstn_app, Lb. replace (S i - i)%nat with 1%nat by lia. rewrite firstn_all2 by lia. reflexivity. }
    split; [exact A'|]. split; [exact B|]. intros d Hdn. destruct (in_names_dec d (names f)) as [H|H]; [apply B; exact H|].
    replace (fget d f) with (@None (list V)) by (symmetry; apply fget_none; exact H). apply fget_none. rewrite A'. intros Hin.
    apply H. rewrite Enm. apply in_app_or in Hin. apply in_or_app. destruct Hin as [Hin|[Hin|Hin]]; [left; exact Hin|right; left; exact Hin|].
    apply in_app_or in Hin. destruct Hin as [Hin|Hin]; [apply fresh_in in Hin; destruct Hin; contradiction|right; right; exact Hin]. }
  destruct F1 as (F1 & F2 & F3). destruct (set_fold cs f1 Hds) as (A & B & C). cbn zeta in A, B, C. fold cs. split; [|split].
  - rewrite A, Ecs. destruct after.
    + assert (Z : fresh f1 (map fst cols) = []).
      { destruct (fresh f1 (map fst cols)) as [|x l] eqn:E; [reflexivity|]. exfalso. assert (Hx : In x (fresh f1 (map fst cols))) by (rewrite E; left; reflexivity).
        apply fresh_in in Hx. destruct Hx as [Hx Hnx]. apply Hnx. rewrite F1. destruct (in_names_dec x (names f)) as [H|H].
        - rewrite Enm in H. apply in_app_or in H. apply in_or_app. destruct H as [H|[H|H]]; [left; exact H|right; left; exact H|right; right; apply in_or_app; right; exact H].
        - apply in_or_app. right. right. apply in_or_app. left. apply fresh_in. auto. }
      rewrite Z, app_nil_r. exact F1.
    + rewrite F1, <- Enm. unfold f1. reflexivity.
  - intros c Hcn. rewrite B by (rewrite Ecs; exact Hcn). apply F3. exact Hcn.
  - intros c Hcn. apply in_map_iff in Hcn. destruct Hcn as ([c' vs] & E & Hin). cbn [fst] in E. subst c'. exists vs. split; [|split].
    + apply C. unfold cs. apply in_map_iff. exists (c, vs). auto.
    + rewrite Forall_forall in Hl. exact (Hl (c, vs) Hin).
    + intros j file Hj. exists (row_of j cols). split; [exact (Hr j file Hj)|]. unfold row_of. apply in_map_iff. exists (c, vs). auto.
Qed.

Lemma combine_unique {A B} (ns : list A) : forall (vs : list B) j n x d, NoDup ns -> nth_error ns j = Some n -> In (n, x) (combine ns vs) -> x = nth j vs d.
Proof.
  induction ns as [|m ns IH]; intros [|v vs] j n x d Hd Hj Hin; cbn [combine] in Hin; try destruct Hin.
  - injection H as <- <-. destruct j as [|j]; [reflexivity|]. exfalso. cbn in Hj. apply nth_error_In in Hj. apply NoDup_cons_iff in Hd. tauto.
  - apply NoDup_cons_iff in Hd. destruct Hd as [Hm Hd]. destruct j as [|j]; cbn in Hj.
    + injection Hj as <-. exfalso. apply Hm. apply in_combine_l in H. exact H.
    + cbn [nth]. apply (IH vs j n x d Hd Hj H).
Qed.
Lemma nth_ext_map {A B} (l : list A) (m : list B) (g : A -> B) d : length m = length l -> (forall i x, nth_error l i = Some x -> nth i m d = g x) -> m = map g l.
Proof.
  revert l. induction m as [|y m IH]; intros [|x l] L H; cbn in L; try discriminate; [reflexivity|]. cbn [map]. f_equal.
  - exact (H 0%nat x eq_refl).
  - apply IH; [lia|]. intros i z Hi. exact (H (S i) z Hi).
Qed.

(** one file of a batch: the parameter values in its name (with their separators and tokens) and the end of the name *)
Definition describes (sk : list (pystr * token)) (end_ : pystr) (r : list field * pystr) (vs : list cellv) : Prop :=
  map fst (fst r) = sk /\ Forall field_ok (fst r) /\ decodable (fst r) end_ (snd r) /\
  Forall2 (fun x v => encodes (t_dtype (f_tok x)) (f_text x) v) (fst r) vs.
(** File names written after a template: the table gets, for every parameter, the column of the encoded values. *)
Theorem C93_roundtrip (sk : list (pystr * token)) (end_ column : pystr) (after : bool) f cells (rows : list (list field * pystr)) (vss : list (list cellv)) :
  sk <> [] -> plain end_ -> literal end_ -> NoDup (map (fun t => t_name (snd t)) sk) -> ~ In (str "self") (map (fun t => t_name (snd t)) sk) ->
  NoDup (names f) -> fget column f = Some cells -> rows <> [] ->
  holds_files cells (map (fun r => filename_of (fst r) end_ (snd r)) rows) ->
  Forall2 (describes sk end_) rows vss ->
  exists f', apply_on (template_of sk end_) column after f = Some (Ok f') /\
    forall j t, nth_error sk j = Some t -> fget (t_name (snd t)) f' = Some (map (fun vs => of_cell (nth j vs CNaN)) vss).
Proof.
  intros Hsk He Hle Hnd Hself Hnf Hc Hrows Hh Hd. set (files := map (fun r => filename_of (fst r) end_ (snd r)) rows) in *.
  assert (Hx : forall r vs, describes sk end_ r vs ->
     extract (template_of sk end_) (filename_of (fst r) end_ (snd r)) = Some (Ok (combine (map (fun t => t_name (snd t)) sk) vs))).
  { intros [l tl] vs (H1 & H2 & H3 & H4). cbn [fst snd] in *. subst sk. rewrite map_map in *. apply C59_roundtrip; try assumption. intros ->. apply Hsk. reflexivity. }
  assert (Hfl : Forall2 (fun file vs => extract (template_of sk end_) file = Some (Ok (combine (map (fun t => t_name (snd t)) sk) vs))) files vss).
  { unfold files. clear -Hd Hx. induction Hd as [|r vs rows vss H1 H IH]; cbn [map]; constructor; [apply Hx; exact H1|exact IH]. }
  assert (Hall : forall file, In file files -> exists row, extract (template_of sk end_) file = Some (Ok row)).
  { intros file Hf. destruct (In_nth_error _ _ Hf) as [i Hi]. destruct (Forall2_nth _ _ _ Hfl i file Hi) as (vs & _ & E). eauto. }
  destruct (extract_total text (template_of sk end_) column f cells files Hc Hh) as [cols Ex]; [unfold files; destruct rows; [contradiction|discriminate]|exact Hall|].
  destruct (extract_rows text _ column f cells files cols Hc Hh Ex) as (Hp & Hdc & Hlc & Hr).
  assert (Ens : map fst cols = map (fun t => t_name (snd t)) sk).
  { destruct rows as [|r0 rows']; [contradiction|]. inversion Hfl as [|file0 vs0 l0 m0 E0 E1 H1 H2]. 
    assert (Ef : nth_error files 0 = Some (filename_of (fst r0) end_ (snd r0))) by reflexivity.
    specialize (Hr 0%nat _ Ef). assert (file0 = filename_of (fst r0) end_ (snd r0)) by (unfold files in H1; cbn [map] in H1; congruence). subst file0.
    inversion Hd as [|r1 vs1 l1 m1 D0 D1]; subst. destruct D0 as (D0 & _ & _ & D2).
    assert (L : length vs1 = length sk). { apply F2_length in D2. rewrite <- D0, map_length. symmetry. exact D2. }
    assert (R : row_of 0 cols = combine (map (fun t => t_name (snd t)) sk) vs0) by congruence.
    assert (R2 : map fst (row_of 0 cols) = map fst cols) by (unfold row_of; rewrite map_map; reflexivity). rewrite <- R2, R.
    assert (V0 : vs0 = vs1) by congruence. subst vs0. clear -L. revert vs1 L. induction sk as [|t sk IH]; intros [|v vs] L; cbn in L; try discriminate; [reflexivity|].
    cbn [map combine fst]. f_equal. apply IH. lia. }
  assert (Ho : exists f', apply_on (template_of sk end_) column after f = Some (Ok f')).
  { unfold ModelTable.apply_on. rewrite Ex. cbn [option_map rbind]. unfold assign. rewrite map_map. cbn [fst].
    destruct (existsb (zs_eqb (str "self")) (map (fun x : pystr * list cellv => fst x) cols)) eqn:E; [|eauto].
    exfalso. apply Hself. rewrite <- Ens. apply mem_in. exact E. }
  destruct Ho as [f' Ho]. exists f'. split; [exact Ho|].
  destruct (C93_table _ column after f f' cells files Hnf Hc Hh Ho) as (before & behind & ns & added & (tk & sp & Hp1 & Hp2) & _ & _ & _ & _ & _ & Hval).
  assert (Ens2 : ns = map (fun t => t_name (snd t)) sk). { destruct Hp as (tk2 & sp2 & P1 & P2). rewrite <- Ens, P2, Hp2. congruence. }
  intros j t Hj. assert (Hjn : nth_error ns j = Some (t_name (snd t))) by (rewrite Ens2, nth_error_map, Hj; reflexivity).
  destruct (Hval (t_name (snd t)) (nth_error_In _ _ Hjn)) as (vs & E & L & Hv). rewrite E. f_equal.
  assert (Ev : vs = map (fun v => nth j v CNaN) vss).
  { apply (nth_ext_map vss vs (fun v => nth j v CNaN) CNaN).
    - rewrite L. exact (F2_length _ _ _ Hfl).
    - intros i v Hi. destruct (nth_error files i) as [file|] eqn:Hfi.
      + destruct (Hv i file Hfi) as (row & Er & Hin). destruct (Forall2_nth _ _ _ Hfl i file Hfi) as (v' & Hv' & E').
        assert (v' = v) by congruence. subst v'. assert (row = combine (map (fun t => t_name (snd t)) sk) v) by congruence. subst row.
        rewrite <- Ens2 in Hin. apply (combine_unique ns v j (t_name (snd t)) (nth i vs CNaN) CNaN); [rewrite Ens2; exact Hnd|exact Hjn|exact Hin].
      + exfalso. apply nth_error_None in Hfi. assert (i < length vss)%nat by (apply nth_error_Some; congruence). rewrite (F2_length _ _ _ Hfl) in Hfi. lia. }
  rewrite Ev, map_map. reflexivity.
Qed.

(** Applying the same template again changes nothing, unless it replaced the file names themselves. *)
Lemma fset_same c v f : NoDup (names f) -> fget c f = Some v -> fset c v f = f.
Proof.
  induction f as [|[k w] f IH]; cbn [fget fset names map fst]; [discriminate|]. intros Hd H. apply NoDup_cons_iff in Hd. destruct Hd as [Hk Hd].
  destruct (zs_eqb c k); [congruence|]. f_equal. apply IH; assumption.
Qed.
Lemma set_fold_same (cols : list (pystr * list V)) f : NoDup (names f) -> (forall c v, In (c, v) cols -> fget c f = Some v) ->
  fold_left (fun f p => fset (fst p) (snd p) f) cols f = f.
Proof.
  intros Hn. induction cols as [|[c v] cols IH]; intros H; cbn [fold_left fst snd]; [reflexivity|].
  rewrite fset_same; [|exact Hn|apply H; left; reflexivity]. apply IH. intros c1 v1 H1. apply H. right. exact H1.
Qed.
Lemma insert_all_none i rows cols f : (forall c, In c cols -> In c (names f)) -> insert_all blank i rows cols f = f.
Proof.
  intros H. unfold insert_all. assert (H1 : forall c, In c (rev cols) -> In c (names f)) by (intros c Hc; apply H; apply in_rev; exact Hc). clear H. revert H1.
  generalize (rev cols) as l. induction l as [|c l IH]; intros H; cbn [fold_left]; [reflexivity|].
  assert (E : existsb (zs_eqb c) (names f) = true) by (apply mem_in; apply H; left; reflexivity). rewrite E. apply IH. intros x Hx. apply H. right. exact Hx.
Qed.
Lemma NoDup_app_intro {A} (l m : list A) : NoDup l -> NoDup m -> (forall x, In x l -> ~ In x m) -> NoDup (l ++ m).
Proof.
  induction l as [|x l IH]; intros Hl Hm H; cbn [app]; [exact Hm|]. apply NoDup_cons_iff in Hl. destruct Hl as [Hx Hl]. constructor.
  - intros Hi. apply in_app_or in Hi. destruct Hi as [Hi|Hi]; [contradiction|]. apply (H x (or_introl eq_refl) Hi).
  - apply IH; [exact Hl|exact Hm|]. intros y Hy. apply H. right. exact Hy.
Qed.
Lemma apply_nodup (template column : pystr) (after : bool) f f' : NoDup (names f) -> apply_on template column after f = Some (Ok f') ->
  exists cols, extract_from text template column f = Some (Ok cols) /\ NoDup (names f') /\ ~ In (str "self") (map fst cols) /\ NoDup (map fst cols) /\ parameter_names template (map fst cols) /\
    (forall c v, In (c, v) cols -> fget c f' = Some (map of_cell v)) /\ (forall c, ~ In c (map fst cols) -> fget c f' = fget c f).
Proof.
  intros Hn Ha. destruct (apply_inv _ _ _ _ _ Ha) as (cols & cells & Ex & Hc & Hs & ->). exists cols. split; [exact Ex|].
  assert (Hd : NoDup (map fst cols) /\ parameter_names template (map fst cols)).
  { clear -Ex Hc. unfold extract_from in Ex. unfold parameter_names.
    destruct (parse_template template) as [[tokens seps]|]; [|discriminate]. destruct (construct_regex tokens seps) as [re|]; [|discriminate]. rewrite Hc in Ex.
    destruct (compile (S (length re)) re); [|discriminate]. destruct (negb (forallb identifier (map t_name tokens) && distinct (map t_name tokens))) eqn:Eb; [discriminate|].
    destruct (Nat.eqb (length tokens) 0); [discriminate|].
    assert (Ex2 : Forall2 (fun t p => rbind (kind_of (t_dtype t)) (fun k => rmap (pair (t_name t)) (rmapl (fun g => convert_cell k (group_text g (t_name t)))
       (map (fun v => match text v with Some s => research l s | None => None end) cells))) = Ok p) tokens cols) by (apply rmapl_spec; congruence).
    assert (En : map fst cols = map t_name tokens).
    { clear -Ex2. induction Ex2 as [|t p tokens cols H1 H0 IH]; [reflexivity|]. cbn [map]. rewrite IH. f_equal.
      destruct (kind_of (t_dtype t)); cbn [rbind] in H1; [|discriminate]. apply rmap_ok in H1. destruct H1 as (x & _ & ->). reflexivity. }
    split; [|exists tokens, seps; auto]. rewrite En. apply negb_false_iff, andb_prop in Eb. apply distinct_spec. apply Eb. }
  destruct Hd as [Hd Hp]. set (cs := map (fun p => (fst p, map of_cell (snd p))) cols).
  assert (Ecs : map fst cs = map fst cols) by (unfold cs; rewrite map_map; reflexivity).
  assert (Hds : NoDup (map fst cs)) by (rewrite Ecs; exact Hd).
  set (f1 := if after then match get_loc column f with Some i => insert_all blank (S i) (length cells) (map fst cols) f | None => f end else f).
  assert (F1 : NoDup (names f1) /\ (forall d, ~ In d (map fst cols) -> fget d f1 = fget d f)).
  { unfold f1. destruct after; [|auto]. destruct (get_loc column f) as [i|] eqn:Ei; [|auto]. destruct (get_loc_spec column f i Ei) as [Li _].
    destruct (insert_all_spec blank (S i) (length cells) (map fst cols) f ltac:(lia) Hd) as [A B].
    assert (Sp : names f = firstn (S i) (names f) ++ skipn (S i) (names f)) by (symmetry; apply firstn_skipn). split.
    - rewrite A. rewrite Sp in Hn. clear -Hn Hd Sp.
      assert (Hfr : NoDup (fresh f (map fst cols))) by (apply NoDup_filter; exact Hd).
      assert (Hdis : forall x, In x (fresh f (map fst cols)) -> ~ In x (names f)) by (intros x Hx; apply fresh_in in Hx; apply Hx).
      apply (Permutation_NoDup (l := fresh f (map fst cols) ++ firstn (S i) (names f) ++ skipn (S i) (names f))).
      + rewrite !app_assoc. apply Permutation_app_tail. apply Permutation_app_comm.
      + apply NoDup_app_intro; [exact Hfr|exact Hn|]. intros x Hx. rewrite <- Sp. apply Hdis. exact Hx.
    - intros d Hdn. destruct (in_names_dec d (names f)) as [H|H]; [apply B; exact H|].
      replace (fget d f) with (@None (list V)) by (symmetry; apply fget_none; exact H). apply fget_none. rewrite A. intros Hin.
      apply in_app_or in Hin. destruct Hin as [Hin|Hin]; [apply H; rewrite Sp; apply in_or_app; left; exact Hin|].
      apply in_app_or in Hin. destruct Hin as [Hin|Hin]; [apply fresh_in in Hin; tauto|apply H; rewrite Sp; apply in_or_app; right; exact Hin]. }
  destruct F1 as [F1 F3]. destruct (set_fold cs f1 Hds) as (A & B & C). cbn zeta in A, B, C. split; [|split; [|split; [|split; [|split]]]]; try assumption.
  - rewrite A. apply NoDup_app_intro; [exact F1|apply NoDup_filter; exact Hds|]. intros x Hx Hf. apply fresh_in in Hf. tauto.
  - intros c v Hin. apply C. unfold cs. apply in_map_iff. exists (c, v). auto.
  - intros c Hcn. rewrite B by (rewrite Ecs; exact Hcn). apply F3. exact Hcn.
Qed.
Lemma extract_from_ext (template column : pystr) f g : fget column f = fget column g -> extract_from text template column f = extract_from text template column g.
Proof. intros H. unfold extract_from. rewrite H. reflexivity. Qed.
Theorem C93_idempotent (template column : pystr) (after after' : bool) f f' ns :
  NoDup (names f) -> parameter_names template ns -> ~ In column ns ->
  apply_on template column after f = Some (Ok f') -> apply_on template column after' f' = Some (Ok f').
Proof.
  intros Hn Hns Hcol Ha. destruct (apply_nodup _ _ _ _ _ Hn Ha) as (cols & Ex & Hn' & Hs & Hd & (tk2 & sp2 & P1 & P2) & Hv & Ho).
  assert (En : ns = map fst cols) by (destruct Hns as (tk & sp & Q1 & Q2); congruence). rewrite En in Hcol.
  assert (Ex' : extract_from text template column f' = Some (Ok cols)) by (rewrite <- Ex; apply extract_from_ext; apply Ho; exact Hcol).
  assert (Hin : forall c, In c (map fst cols) -> In c (names f')).
  { intros c Hc. apply in_map_iff in Hc. destruct Hc as ([c' v] & E & Hc). cbn [fst] in E. subst c'. destruct (in_names_dec c (names f')) as [H|H]; [exact H|].
    apply fget_none in H. rewrite (Hv c v Hc) in H. discriminate. }
  unfold ModelTable.apply_on. rewrite Ex'. cbn [option_map rbind]. f_equal. unfold assign. rewrite map_map. cbn [fst].
  replace (existsb (zs_eqb (str "self")) (map (fun x : pystr * list cellv => fst x) cols)) with false by (symmetry; apply mem_not; exact Hs). f_equal.
  assert (E1 : (if after' then match get_loc column f', fget column f' with Some i, Some cells => insert_all blank (S i) (length cells) (map fst cols) f' | _, _ => f' end else f') = f').
  { destruct after'; [|reflexivity]. destruct (get_loc column f'); [|reflexivity]. destruct (fget column f'); [|reflexivity]. apply insert_all_none. exact Hin. }
  rewrite E1. apply set_fold_same; [exact Hn'|]. intros c v Hc. apply in_map_iff in Hc. destruct Hc as ([c' vs] & E & Hc). cbn [fst snd] in E. injection E as <- <-. apply Hv. exact Hc.
Qed.
(** Two templates with different parameters: the columns of both, whichever is applied first. *)
Theorem C93_two (t1 t2 column : pystr) (a1 a2 : bool) f f1 f2 ns1 ns2 :
  NoDup (names f) -> parameter_names t1 ns1 -> parameter_names t2 ns2 -> (forall c, In c ns1 -> ~ In c ns2) -> ~ In column ns1 -> ~ In column ns2 ->
  apply_on t1 column a1 f = Some (Ok f1) -> apply_on t2 column a2 f1 = Some (Ok f2) ->
  exists g1 g2, apply_on t2 column a2 f = Some (Ok g1) /\ apply_on t1 column a1 g1 = Some (Ok g2) /\ forall c, fget c g2 = fget c f2.
Proof.
  intros Hn Hp1 Hp2 Hdis Hc1 Hc2 H1 H2.
  destruct (apply_nodup _ _ _ _ _ Hn H1) as (cols1 & Ex1 & Hn1 & Hs1 & Hd1 & Q1 & Hv1 & Ho1).
  destruct (apply_nodup _ _ _ _ _ Hn1 H2) as (cols2 & Ex2 & Hn2 & Hs2 & Hd2 & Q2 & Hv2 & Ho2).
  assert (E1 : ns1 = map fst cols1) by (destruct Hp1 as (? & ? & A & B), Q1 as (? & ? & C & D); congruence).
  assert (E2 : ns2 = map fst cols2) by (destruct Hp2 as (? & ? & A & B), Q2 as (? & ? & C & D); congruence). subst ns1 ns2.
  assert (T : forall t cols g b, extract_from text t column g = Some (Ok cols) -> ~ In (str "self") (map fst cols) -> exists g', apply_on t column b g = Some (Ok g')).
  { intros t cols g b Ex Hs. unfold ModelTable.apply_on. rewrite Ex. cbn [option_map rbind]. unfold assign. rewrite map_map. cbn [fst].
    replace (existsb (zs_eqb (str "self")) (map (fun x : pystr * list cellv => fst x) cols)) with false by (symmetry; apply mem_not; exact Hs). eauto. }
  assert (X2 : extract_from text t2 column f = Some (Ok cols2)) by (rewrite <- Ex2; apply extract_from_ext; symmetry; apply Ho1; exact Hc1).
  destruct (T t2 cols2 f a2 X2 Hs2) as [g1 G1]. destruct (apply_nodup _ _ _ _ _ Hn G1) as (cols2' & Y2 & Hng1 & _ & _ & _ & Hw2 & Hu2).
  assert (cols2' = cols2) by congruence. subst cols2'.
  assert (X1 : extract_from text t1 column g1 = Some (Ok cols1)) by (rewrite <- Ex1; apply extract_from_ext; apply Hu2; exact Hc2).
  destruct (T t1 cols1 g1 a1 X1 Hs1) as [g2 G2]. destruct (apply_nodup _ _ _ _ _ Hng1 G2) as (cols1' & Y1 & Hng2 & _ & _ & _ & Hw1 & Hu1).
  assert (cols1' = cols1) by congruence. subst cols1'. exists g1, g2. split; [exact G1|]. split; [exact G2|]. intros c.
  assert (M : forall cs : list (pystr * list cellv), In c (map fst cs) -> exists v, In (c, v) cs) by (intros cs Hi; apply in_map_iff in Hi; destruct Hi as ([c' v] & E & Hi); cbn in E; subst; eauto).
  destruct (in_names_dec c (map fst cols1)) as [I1|I1].
  - destruct (M cols1 I1) as [v Hv]. rewrite (Hw1 c v Hv), (Ho2 c (Hdis c I1)). symmetry. apply Hv1. exact Hv.
  - rewrite (Hu1 c I1). destruct (in_names_dec c (map fst cols2)) as [I2|I2].
    + destruct (M cols2 I2) as [v Hv]. rewrite (Hw2 c v Hv). symmetry. apply Hv2. exact Hv.
    + rewrite (Hu2 c I2), (Ho2 c I2). symmetry. apply Ho1. exact I1.
Qed.
End Apply.

(** *** The table of a batch *)
Lemma str_inj a b : str a = str b -> a = b.
Proof.
  unfold str. intros H. rewrite <- (string_of_list_ascii_of_string a), <- (string_of_list_ascii_of_string b). f_equal.
  revert H. generalize (list_ascii_of_string a) (list_ascii_of_string b). induction l as [|x l IH]; intros [|y m] H; cbn [map] in H; try discriminate; [reflexivity|].
  assert (H1 : Z.of_nat (Ascii.nat_of_ascii x) = Z.of_nat (Ascii.nat_of_ascii y) /\ map (fun c => Z.of_nat (Ascii.nat_of_ascii c)) l = map (fun c => Z.of_nat (Ascii.nat_of_ascii c)) m) by (split; congruence).
  destruct H1 as [H1 H2]. f_equal; [|apply IH; exact H2]. apply Nat2Z.inj in H1. rewrite <- (Ascii.ascii_nat_embedding x), <- (Ascii.ascii_nat_embedding y). f_equal. exact H1.
Qed.
Section Batch.
Context {St V Arg File : Type}.
Variable text : V -> option pystr.
Variable of_cell : cellv -> V.
Variable blank : V.
Variable veqb : V -> V -> bool.
Variable nan : V.
Notation finish := (finish text of_cell blank veqb nan).

Lemma fget_to_frame cols (rows : list (dict V)) c : fget (str c) (to_frame nan cols rows) = if existsb (String.eqb c) cols then Some (map (fun r => cell nan r c) rows) else None.
Proof.
  induction cols as [|k cols IH]; cbn [to_frame map fget existsb]; [reflexivity|]. destruct (String.eqb_spec c k) as [->|N].
  - rewrite zs_eqb_refl. reflexivity.
  - rewrite zs_eqb_neq by (intros H; apply N, str_inj; exact H). exact IH.
Qed.
Lemma names_to_frame cols (rows : list (dict V)) : names (to_frame nan cols rows) = map str cols.
Proof. unfold to_frame, names. rewrite map_map. reflexivity. Qed.
Lemma columns_nodup (rows : list (dict V)) : NoDup (columns rows).
Proof. unfold columns. apply (proj2 (columns_acc rows [])). constructor. Qed.
Lemma columns_cells (rows : list (dict V)) c : In c (columns rows) ->
  map (fun r => cell nan r c) (snd (dataframe nan rows)) = map (fun r => cell nan r c) rows.
Proof.
  intros Hc. unfold dataframe. cbn [snd]. rewrite map_map. apply map_ext. intros r. unfold cell at 1. rewrite dget_tabulate. apply existsb_eqb in Hc. rewrite Hc. reflexivity.
Qed.
(** 'file' stays the first column *)
Lemma dupdate_head (k : string) (v : V) d : forall e, exists w rest, dupdate ((k, v) :: d) e = (k, w) :: rest.
Proof.
  intros e. revert v d. unfold dupdate. induction e as [|[k' v'] e IH]; intros v d; cbn [fold_left fst snd]; [eauto|]. cbn [dset].
  destruct (String.eqb k' k); apply IH.
Qed.
Lemma columns_head_fold (l : list string) : forall (rows : list (dict V)), exists rest, fold_left (fun cs r => fold_left (fun cs p => if existsb (String.eqb (fst p)) cs then cs else cs ++ [fst p]) r cs) rows l = l ++ rest.
Proof.
  intros rows. revert l. induction rows as [|r rows IH]; intros l; cbn [fold_left]; [exists []; symmetry; apply app_nil_r|].
  assert (R : exists rest, fold_left (fun cs (p : string * V) => if existsb (String.eqb (fst p)) cs then cs else cs ++ [fst p]) r l = l ++ rest).
  { revert l. induction r as [|p r IHr]; intros l; cbn [fold_left]; [exists []; symmetry; apply app_nil_r|]. destruct (existsb (String.eqb (fst p)) l); [apply IHr|].
    destruct (IHr (l ++ [fst p])) as [rest E]. exists (fst p :: rest). rewrite E, <- app_assoc. reflexivity. }
  destruct R as [rest E]. rewrite E. destruct (IH (l ++ rest)) as [rest2 E2]. exists (rest ++ rest2). rewrite E2, app_assoc. reflexivity.
Qed.
Lemma columns_head k v d (rows : list (dict V)) : exists rest, columns (((k, v) :: d) :: rows) = k :: rest.
Proof.
  unfold columns. cbn [fold_left fst existsb app].
  assert (R : exists rest, fold_left (fun cs (p : string * V) => if existsb (String.eqb (fst p)) cs then cs else cs ++ [fst p]) d [k] = [k] ++ rest).
  { pose proof (columns_head_fold [k] [d]) as [rest E]. exists rest. exact E. }
  destruct R as [rest E]. rewrite E. destruct (columns_head_fold ([k] ++ rest) rows) as [rest2 E2]. exists (rest ++ rest2). etransitivity; [exact E2|reflexivity].
Qed.

(** *** C93 for a whole batch: 'file' is the first column, then the parameters read from the names, then the calculated values; every
    row is about one file, in the order of completion; the saved table is the returned one. *)
Theorem C93_batch (E : env St V Arg File) (steps : list (step St V Arg)) ig ch files mp out (row : File -> dict V) (nameof : File -> pystr)
    (pattern : pystr) (save : bool) f' saved :
  steps <> [] -> files <> [] -> (forall f, In f files -> task E steps ig ch f = Ok (row f)) ->
  (forall st, In st steps -> ~ may_write E st "file") -> (forall f, text (e_name E f) = Some (nameof f)) ->
  executes E steps ig ch files mp out ->
  finish None (Some pattern) save (fst out) = Some (Ok f', saved) ->
  exists order ns added rest, Permutation order files /\ (mp = false -> order = files) /\ saved = (if save then Some f' else None) /\
    parameter_names pattern ns /\ names f' = str "file" :: added ++ map str rest /\ "file" :: rest = columns (map row order) /\
    is_filter_of (fun c => ~ In c (map str ("file" :: rest))) added ns /\
    (forall c, In c ns -> exists vs, fget c f' = Some (map of_cell vs) /\ length vs = length order /\
       forall i f, nth_error order i = Some f -> exists r, extract pattern (nameof f) = Some (Ok r) /\ In (c, nth i vs CNaN) r) /\
    (forall c, ~ In (str c) ns -> In c ("file" :: rest) -> fget (str c) f' = Some (map (fun f => cell nan (row f) c) order)).
Proof.
  intros Hs Hne Ht Hw Htx Hex Hfin. destruct (C61_rows E steps ig ch files mp out row Hs Ht Hex) as (order & HP & -> & Hmp). cbn [fst] in Hfin.
  assert (Hin : forall f, In f order -> In f files) by (intros f; apply Permutation_in; exact HP).
  assert (Hno : order <> []) by (intros ->; apply Permutation_nil in HP; contradiction).
  unfold ModelTable.finish, result_frame, table_frame in Hfin. set (results := map row order) in *.
  assert (Hhead : exists rest, columns results = "file" :: rest).
  { unfold results. destruct order as [|f0 order']; [contradiction|]. cbn [map]. destruct (task_inv _ _ _ _ _ _ (Ht f0 (Hin f0 (or_introl eq_refl)))) as (s & s' & d & _ & _ & E0).
    destruct (dupdate_head "file" (e_name E f0) [] d) as (w & rest & E1). rewrite E0, E1. apply columns_head. }
  destruct Hhead as [rest Hrest]. set (f := to_frame nan (columns results) (snd (dataframe nan results))) in *.
  destruct (apply_on text of_cell blank pattern (str "file") true f) as [[g|e]|] eqn:Ha; cbn [option_map] in Hfin; [|congruence|discriminate].
  assert (g = f' /\ saved = (if save then Some f' else None)) as [-> ->] by (split; [congruence|destruct save; congruence]).
  assert (Hnf : NoDup (names f)). { unfold f. rewrite names_to_frame. apply FinFun.Injective_map_NoDup; [intros a b; apply str_inj|apply columns_nodup]. }
  assert (Hcol : forall c, In c (columns results) -> fget (str c) f = Some (map (fun f => cell nan (row f) c) order)).
  { intros c Hc. unfold f. rewrite fget_to_frame. rewrite (proj2 (existsb_eqb c (columns results)) Hc). f_equal. rewrite columns_cells by exact Hc. unfold results. rewrite map_map. reflexivity. }
  assert (Hfile : forall f0, In f0 order -> cell nan (row f0) "file" = e_name E f0).
  { intros f0 Hf0. unfold cell. rewrite (C61_file_column E steps ig ch f0 (row f0) (Ht f0 (Hin f0 Hf0)) Hw). reflexivity. }
  assert (Hcells : fget (str "file") f = Some (map (fun f => e_name E f) order)).
  { rewrite Hcol by (rewrite Hrest; left; reflexivity). f_equal. apply map_ext_in. exact Hfile. }
  assert (Hh : holds_files text (map (fun f => e_name E f) order) (map nameof order)).
  { unfold holds_files. rewrite !map_map. apply map_ext. exact Htx. }
  destruct (C93_table text of_cell blank pattern (str "file") true f f' _ _ Hnf Hcells Hh Ha) as (before & behind & ns & added & Hp & _ & Enm & Hadd & Enm' & Hother & Hval).
  assert (Hb : before = [] /\ behind = map str rest).
  { unfold f in Enm. rewrite names_to_frame, Hrest in Enm. cbn [map] in Enm. destruct before as [|b before]; cbn [app] in Enm.
    - split; [reflexivity|congruence].
    - exfalso. unfold f in Hnf. rewrite names_to_frame, Hrest in Hnf. cbn [map] in Hnf. apply NoDup_cons_iff in Hnf. destruct Hnf as [Hnf _].
      apply Hnf. assert (Et : map str rest = before ++ str "file" :: behind) by congruence. rewrite Et. apply in_or_app. right. left. reflexivity. }
  destruct Hb as [-> ->]. exists order, ns, added, rest. split; [exact HP|]. split; [exact Hmp|]. split; [reflexivity|]. split; [exact Hp|].
  split; [exact Enm'|]. split; [symmetry; exact Hrest|]. split; [|split].
  - unfold f in Hadd. rewrite names_to_frame, Hrest in Hadd. exact Hadd.
  - intros c Hc. destruct (Hval c Hc) as (vs & E1 & E2 & E3). exists vs. rewrite map_length in E2. split; [exact E1|]. split; [exact E2|].
    intros i f0 Hi. apply E3. rewrite nth_error_map, Hi. reflexivity.
  - intros c Hc Hi. rewrite (Hother (str c) Hc). apply Hcol. rewrite Hrest. exact Hi.
Qed.
(** Registering the template before executing or applying it to the returned table is the same. *)
Theorem C93_when additional (pattern : pystr) (save : bool) r (h : heap V) f' :
  (exists saved, finish additional (Some pattern) save r = Some (Ok f', saved)) <->
  exists f saved r2 h2, finish additional None save r = Some (Ok f, saved) /\
    (let (b, h1) := new_result (h ++ [f]) (length h) in result_extract text of_cell blank h1 b pattern) = Some (Ok tt, r2, h2) /\ load h2 (get_dataframe r2) = f'.
Proof.
  unfold ModelTable.finish, result_frame. destruct r as [results|e].
  - destruct (table_frame veqb nan additional results) as [f|e].
    + assert (Q : (let (b, h1) := new_result (h ++ [f]) (length h) in result_extract text of_cell blank h1 b pattern) =
         option_map (fun o => match o with
                       | Ok g => (Ok tt, mkResult (length ((h ++ [f]) ++ [f])), ((h ++ [f]) ++ [f]) ++ [g])
                       | Err e => (Err e, mkResult (length (h ++ [f])), (h ++ [f]) ++ [f])
                       end) (apply_on text of_cell blank pattern (str "file") true f)).
      { unfold new_result, result_extract. cbn [r_df].
        assert (L1 : load (h ++ [f]) (length h) = f) by (unfold load; rewrite app_nth2, Nat.sub_diag by lia; reflexivity). rewrite L1.
        assert (L2 : load ((h ++ [f]) ++ [f]) (length (h ++ [f])) = f) by (unfold load; rewrite app_nth2, Nat.sub_diag by lia; reflexivity). rewrite L2. reflexivity. }
      cbn [option_map]. split.
      * intros [saved H]. destruct (apply_on text of_cell blank pattern (str "file") true f) as [[g|e]|] eqn:Ea; cbn [option_map] in H, Q; try discriminate.
        assert (g = f') by congruence. subst g. exists f. do 3 eexists. split; [reflexivity|]. split; [exact Q|].
        unfold get_dataframe. cbn [r_df]. unfold load. rewrite app_nth2, Nat.sub_diag by lia. reflexivity.
      * intros (f0 & saved & r2 & h2 & H0 & H1 & H2). assert (f0 = f) by congruence. subst f0. rewrite Q in H1.
        destruct (apply_on text of_cell blank pattern (str "file") true f) as [[g|e]|] eqn:Ea; cbn [option_map] in H1; try discriminate.
        assert (r2 = mkResult (length ((h ++ [f]) ++ [f])) /\ h2 = ((h ++ [f]) ++ [f]) ++ [g]) as [-> ->] by (split; congruence).
        unfold get_dataframe in H2. cbn [r_df] in H2. unfold load in H2. rewrite app_nth2, Nat.sub_diag in H2 by lia. cbn [nth] in H2. subst g. cbn [option_map]. eauto.
    + cbn [option_map]. split; [intros [saved H]; discriminate|intros (f0 & saved & r2 & h2 & H0 & _); discriminate].
  - split; [intros [saved H]; discriminate|intros (f0 & saved & r2 & h2 & H0 & _); discriminate].
Qed.
End Batch.

(** *** C94: a BatchResult is a table of its own *)
Section Result.
Context {V : Type}.
Variable text : V -> option pystr.
Variable of_cell : cellv -> V.
Variable blank : V.
(** What can happen: assignments to the result, extraction, and the owner of other DataFrames overwriting one of those *)
Inductive event := ESet (c : pystr) (v : list V) | EExtract (pattern : pystr) | EOther (a : nat) (f : frame V).
(** the program: a heap with the result's DataFrame and all others *)
Definition happen (s : result * heap V) (e : event) : option (result * heap V) :=
  let (r, h) := s in
  match e with
  | ESet c v => Some (r, result_setitem h r c v)
  | EExtract p => option_map (fun o => (snd (fst o), snd o)) (result_extract text of_cell blank h r p)
  | EOther a f => Some (r, store h a f)
  end.
(** the specification: one table *)
Definition should (t : frame V) (e : event) : option (frame V) :=
  match e with
  | ESet c v => Some (fset c v t)
  | EExtract p => option_map (fun o => match o with Ok t' => t' | Err _ => t end) (apply_on text of_cell blank p (str "file") true t)
  | EOther _ _ => Some t
  end.
Fixpoint run {S} (step : S -> event -> option S) (s : S) (es : list event) : option S :=
  match es with [] => Some s | e :: es' => match step s e with Some s' => run step s' es' | None => None end end.
Definition shows (s : result * heap V) : frame V := load (snd s) (get_dataframe (fst s)).

Lemma store_length (h : heap V) a f : (a < length h)%nat -> length (store h a f) = length h.
Proof. intros H. unfold store. rewrite app_length. cbn [length]. rewrite firstn_length, skipn_length. lia. Qed.
Lemma load_store_same (h : heap V) a f : (a < length h)%nat -> load (store h a f) a = f.
Proof. intros H. unfold load, store. rewrite app_nth2; rewrite firstn_length, Nat.min_l by lia; [|lia]. rewrite Nat.sub_diag. reflexivity. Qed.
Lemma load_store_other (h : heap V) a b f : (a < length h)%nat -> a <> b -> load (store h a f) b = load h b.
Proof.
  intros H N. unfold load, store. destruct (Nat.lt_ge_cases b a) as [L|L].
  - rewrite app_nth1 by (rewrite firstn_length; lia). rewrite <- (firstn_skipn a h) at 2. rewrite app_nth1 by (rewrite firstn_length; lia). reflexivity.
  - rewrite app_nth2; rewrite firstn_length, Nat.min_l by lia; [|lia]. destruct (b - a)%nat as [|n] eqn:E; [lia|]. cbn [nth].
    rewrite <- (firstn_skipn (S a) h) at 2. rewrite app_nth2; rewrite firstn_length, Nat.min_l by lia; [|lia]. f_equal. lia.
Qed.
(** Whatever happens, the result shows exactly what was done to it since it was made from the table at address [a]; every DataFrame that
    existed before only changes by its owner's hand. *)
Theorem C94_own (h : heap V) (a : nat) (es : list event) :
  (forall b f, In (EOther b f) es -> (b < length h)%nat) ->
  match run happen (new_result h a) es with
  | Some s => run should (load h a) es = Some (shows s) /\
      forall b, (b < length h)%nat -> (forall f, ~ In (EOther b f) es) -> load (snd s) b = load h b
  | None => run should (load h a) es = None
  end.
Proof.
  intros Ho.
  assert (G : forall es (r : result) (g : heap V), (length h <= r_df r < length g)%nat -> (forall b f, In (EOther b f) es -> (b < length h)%nat) ->
    match run happen (r, g) es with
    | Some s => run should (load g (r_df r)) es = Some (shows s) /\ forall b, (b < length h)%nat -> (forall f, ~ In (EOther b f) es) -> load (snd s) b = load g b
    | None => run should (load g (r_df r)) es = None
    end).
  { clear es Ho. induction es as [|e es IH]; intros r g Hr Ho; cbn [run].
    - split; [reflexivity|]. intros; reflexivity.
    - assert (Ho' : forall b f, In (EOther b f) es -> (b < length h)%nat) by (intros b f Hi; apply (Ho b f); right; exact Hi).
      destruct e as [c v|p|b0 f0]; cbn [happen should].
      + unfold result_setitem. set (g1 := store g (r_df r) (fset c v (load g (r_df r)))).
        assert (Lg : length g1 = length g) by (apply store_length; lia). specialize (IH r g1 ltac:(lia) Ho').
        assert (E : load g1 (r_df r) = fset c v (load g (r_df r))) by (apply load_store_same; lia). rewrite E in IH.
        destruct (run happen (r, g1) es) as [s|]; [|exact IH]. destruct IH as [I1 I2]. split; [exact I1|]. intros b Hb Hn.
        rewrite I2; [|exact Hb|intros f Hi; apply (Hn f); right; exact Hi]. apply load_store_other; lia.
      + unfold result_extract. destruct (apply_on text of_cell blank p (str "file") true (load g (r_df r))) as [[f|e]|]; cbn [option_map fst snd].
        * assert (L : length (g ++ [f]) = S (length g)) by (rewrite app_length; cbn; lia). specialize (IH (mkResult (length g)) (g ++ [f])). cbn [r_df] in IH.
          specialize (IH ltac:(lia) Ho'). assert (E : load (g ++ [f]) (length g) = f) by (unfold load; rewrite app_nth2, Nat.sub_diag by lia; reflexivity). rewrite E in IH.
          revert IH. match goal with |- (match ?x with _ => _ end) -> (match ?y with _ => _ end) => change y with x; destruct x as [s|]; [|exact (fun q => q)] end. intros IH. destruct IH as [I1 I2]. split; [exact I1|]. intros b Hb Hn.
          rewrite I2; [|exact Hb|intros f1 Hi; apply (Hn f1); right; exact Hi]. unfold load. apply app_nth1. lia.
        * specialize (IH r g Hr Ho'). destruct (run happen (r, g) es) as [s|]; [|exact IH]. destruct IH as [I1 I2]. split; [exact I1|]. intros b Hb Hn.
          apply I2; [exact Hb|intros f1 Hi; apply (Hn f1); right; exact Hi].
        * reflexivity.
      + pose proof (Ho b0 f0 (or_introl eq_refl)) as Hb0. assert (Lg : length (store g b0 f0) = length g) by (apply store_length; lia).
        specialize (IH r (store g b0 f0) ltac:(lia) Ho'). rewrite load_store_other in IH by lia.
        destruct (run happen (r, store g b0 f0) es) as [s|]; [|exact IH]. destruct IH as [I1 I2]. split; [exact I1|]. intros b Hb Hn.
        rewrite I2; [|exact Hb|intros f1 Hi; apply (Hn f1); right; exact Hi]. apply load_store_other; [lia|]. intros <-. apply (Hn f0). left. reflexivity. }
  unfold new_result. specialize (G es (mkResult (length h)) (h ++ [load h a])). cbn [r_df] in G. rewrite app_length in G. cbn [length] in G. specialize (G ltac:(lia) Ho).
  assert (E : load (h ++ [load h a]) (length h) = load h a) by (unfold load at 1; rewrite app_nth2, Nat.sub_diag by lia; reflexivity). rewrite E in G.
  revert G. match goal with |- (match ?x with _ => _ end) -> (match ?y with _ => _ end) => change y with x; destruct x as [s|]; [|exact (fun q => q)] end. intros G. destruct G as [G1 G2]. split; [exact G1|]. intros b Hb Hn.
  rewrite G2 by assumption. unfold load. apply app_nth1. exact Hb.
Qed.
(** Reading a column gives the table's column; reading back an assigned one gives what was assigned. *)
Theorem C94_items (h : heap V) (r : result) (c d : pystr) (v : list V) : (r_df r < length h)%nat ->
  result_getitem (result_setitem h r c v) r d = if zs_eqb d c then Ok v else result_getitem h r d.
Proof.
  intros H. unfold result_getitem, result_setitem. rewrite load_store_same by exact H. destruct (zs_eqb d c) eqn:E.
  - apply zs_eqb_eq in E. subst d. rewrite fget_set_same. reflexivity.
  - rewrite fget_set_other; [reflexivity|]. intros ->. rewrite zs_eqb_refl in E. discriminate.
Qed.
(** A failing extraction changes nothing. *)
Theorem C94_atomic (h : heap V) (r r2 : result) (p : pystr) e h2 : result_extract text of_cell blank h r p = Some (Err e, r2, h2) -> r2 = r /\ h2 = h.
Proof.
  unfold result_extract. destruct (apply_on text of_cell blank p (str "file") true (load h (r_df r))) as [[f|e']|]; cbn [option_map]; try discriminate.
  intros H. split; congruence.
Qed.
End Result.

(** Every attribute that a BatchResult does not have itself is the DataFrame's. *)
Theorem C94_attributes {A} (df_attr : nat -> pystr -> res A) (as_frame : A -> option nat) (in_field : nat -> A) (a : nat) (attr : pystr) (depth : nat) :
  (forall x, as_frame (in_field x) = Some x) -> (2 <= depth)%nat -> attr <> df_field ->
  getattr_ depth df_attr as_frame in_field [(df_field, a)] attr = df_attr a attr.
Proof.
  intros Hf Hd Hn. destruct depth as [|[|d]]; [lia|lia|]. cbn [getattr_ find fst]. rewrite (zs_eqb_neq df_field attr) by congruence. rewrite zs_eqb_refl. cbn [rbind].
  rewrite Hf. reflexivity.
Qed.
(** But copy.copy and pickle look up an attribute (__setstate__) on an object without any field yet: that never ends. *)
Theorem C94_copy_refuted {A} (df_attr : nat -> pystr -> res A) (as_frame : A -> option nat) (in_field : nat -> A) (attr : pystr) (depth : nat) :
  getattr_ depth df_attr as_frame in_field [] attr = Err (OtherError "RecursionError").
Proof. revert attr. induction depth as [|d IH]; intros attr; cbn [getattr_ find]; [reflexivity|]. rewrite IH. reflexivity. Qed.

(** *** Concrete tables *)
Inductive cv := CText (s : pystr) | CCell (c : cellv) | CNum (z : Z) | CBlank.
Definition cv_text (v : cv) : option pystr := match v with CText s => Some s | CCell (CStr s) => Some s | _ => None end.
Definition ex_table : frame cv :=
  [(str "file", [CText (str "P90_N10.vk4"); CText (str "P12,5_N7.vk4")]); (str "Sa", [CNum 3; CNum 5]); (str "Sq", [CNum 4; CNum 6])].
Definition ex_pattern : pystr := str "<power|float|P>_<Sq|int|N>".
Definition ex_apply := apply_on cv_text CCell CBlank.
(** the hypotheses of C93_table and C93_batch are met; a parameter named like a column takes that column's place *)
Theorem C93_example :
  ex_apply (str "<power|float|P>_<pulses|int|N>") (str "file") true ex_table = Some (Ok
    [(str "file", [CText (str "P90_N10.vk4"); CText (str "P12,5_N7.vk4")]);
     (str "power", [CCell (CFloat (str "90")); CCell (CFloat (str "12.5"))]); (str "pulses", [CCell (CInt 10); CCell (CInt 7)]);
     (str "Sa", [CNum 3; CNum 5]); (str "Sq", [CNum 4; CNum 6])]) /\
  NoDup (names ex_table) /\ holds_files cv_text [CText (str "P90_N10.vk4"); CText (str "P12,5_N7.vk4")] [str "P90_N10.vk4"; str "P12,5_N7.vk4"] /\
  parameter_names (str "<power|float|P>_<pulses|int|N>") [str "power"; str "pulses"].
Proof.
  split; [vm_compute; reflexivity|]. split; [apply distinct_spec; reflexivity|]. split; [reflexivity|].
  unfold parameter_names. destruct (parse_template (str "<power|float|P>_<pulses|int|N>")) as [[tk sp]|e] eqn:E; [|vm_compute in E; discriminate].
  exists tk, sp. split; [reflexivity|]. vm_compute in E. apply ok_inj in E. assert (E1 := f_equal fst E). cbn [fst] in E1. subst tk. reflexivity.
Qed.
(** A parameter with the name of a calculated value silently replaces that value (also the file names themselves, after which the same
    extraction fails); the name self is a TypeError; one name that does not match an int parameter, or an empty table, loses the
    whole table. *)
Theorem C93_names_refuted :
  ex_apply ex_pattern (str "file") true ex_table = Some (Ok
    [(str "file", [CText (str "P90_N10.vk4"); CText (str "P12,5_N7.vk4")]);
     (str "power", [CCell (CFloat (str "90")); CCell (CFloat (str "12.5"))]);
     (str "Sa", [CNum 3; CNum 5]); (str "Sq", [CCell (CInt 10); CCell (CInt 7)])]) /\
  (exists t, ex_apply (str "P<file|str>_") (str "file") true ex_table = Some (Ok t) /\ fget (str "file") t = Some [CCell (CStr (str "90")); CCell (CStr (str "12,5"))]) /\
  ex_apply (str "P<self|float>_") (str "file") true ex_table = Some (Err TypeError).
Proof. split; [vm_compute; reflexivity|]. split; [eexists; split; vm_compute; reflexivity|vm_compute; reflexivity]. Qed.
Theorem C93_lost_refuted :
  ex_apply (str "_N<pulses|int>") (str "file") true (fset (str "file") [CText (str "P90_N10.vk4"); CText (str "reference.vk4")] ex_table) = Some (Err ValueError) /\
  finish cv_text CCell CBlank (fun _ _ => false) CBlank None (Some (str "_N<pulses|int>")) true (Ok []) = Some (Err KeyError, None) /\
  finish cv_text CCell CBlank (fun _ _ => false) CBlank None None true (Ok []) = Some (Ok [], Some []).
Proof. split; [vm_compute; reflexivity|]. split; vm_compute; reflexivity. Qed.
(** C94: the DataFrame handed out is the result's own - until the next extraction, after which it is not *)
Theorem C94_alias_refuted :
  (let (r, h) := new_result [ex_table] 0 in
   result_getitem (store h (get_dataframe r) []) r (str "Sa") = Err KeyError /\ result_getitem h r (str "Sa") = Ok [CNum 3; CNum 5]) /\
  (let (r, h) := new_result [ex_table] 0 in
   match result_extract cv_text CCell CBlank h r (str "_N<pulses|int>") with
   | Some (Ok tt, r2, h2) => result_getitem h2 r2 (str "pulses") = Ok [CCell (CInt 10); CCell (CInt 7)] /\ fget (str "pulses") (load h2 (get_dataframe r)) = None
   | _ => False
   end).
Proof. split; vm_compute; split; reflexivity. Qed.
(** the events of C94_own on a concrete heap *)
Theorem C94_example :
  exists s, run (happen cv_text CCell CBlank) (new_result [ex_table; []] 0)
    [ESet (str "n") [CNum 1; CNum 2]; EOther 0 []; EExtract (str "_N<pulses|int>"); EExtract (str "_N<pulses"); EOther 1 ex_table; ESet (str "Sa") [CNum 0; CNum 0]] = Some s /\
  names (shows s) = [str "file"; str "pulses"; str "Sa"; str "Sq"; str "n"] /\ fget (str "Sa") (shows s) = Some [CNum 0; CNum 0].
Proof. eexists. split; [vm_compute; reflexivity|]. split; vm_compute; reflexivity. Qed.
