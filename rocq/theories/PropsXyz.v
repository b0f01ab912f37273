(** C57: xyz files. *)
From Coq Require Import String ZArith Bool Reals Lia Lra Arith Permutation Sorted.
From Coq Require Import List.
From Verif Require Import Base RList ModelBytes ModelFits PropsFits.
Import ListNotations.
Local Open Scope list_scope.
Local Open Scope R_scope.

(** np.unique *)
Lemma dedup_in x l : In x (dedup l) <-> In x l.
Proof.
  induction l as [|a l IH]; [reflexivity|]. cbn [dedup]. destruct l as [|b l]; [reflexivity|]. destruct (Req_EM_T a b) as [->|N].
  - rewrite IH. cbn [In]. tauto.
  - cbn [In] in *. rewrite IH. tauto.
Qed.
Lemma dedup_nodup l : sorted l -> NoDup (dedup l).
Proof.
  induction l as [|a l IH]; intros Hs; [constructor|]. cbn [dedup]. destruct l as [|b l]; [repeat constructor; auto|].
  inversion Hs as [|? ? Hf Hs']; subst. destruct (Req_EM_T a b) as [->|N]; [apply IH; exact Hs'|]. constructor; [|apply IH; exact Hs'].
  rewrite dedup_in. intros Hi. inversion Hs' as [|? ? Hf' _]; subst. pose proof (Hf b (or_introl eq_refl)).
  destruct Hi as [Hi|Hi]; [congruence|]. pose proof (Hf' a Hi). lra.
Qed.
Lemma unique_perm l xs : NoDup xs -> (forall x, In x l <-> In x xs) -> Permutation (unique l) xs.
Proof.
  intros Hn H. apply NoDup_Permutation; [apply dedup_nodup; apply sortR_sorted|exact Hn|]. intros x. unfold unique. rewrite dedup_in, sortR_In. apply H.
Qed.
Lemma spread_perm l l' : Permutation l l' -> spread l = spread l'.
Proof.
  intros H. unfold spread. destruct l as [|a l].
  - apply Permutation_nil in H. subst l'. reflexivity.
  - assert (N : l' <> []) by (intros ->; apply Permutation_sym, Permutation_nil in H; discriminate).
    destruct (lmin_ex (a :: l) ltac:(discriminate)) as (m & Em), (lmin_ex l' N) as (m' & Em'), (lmax_ex (a :: l) ltac:(discriminate)) as (M & EM), (lmax_ex l' N) as (M' & EM').
    rewrite Em, Em', EM, EM'. apply lmin_spec in Em, Em'. apply lmax_spec in EM, EM'.
    rewrite (is_min_unique _ _ _ (is_min_perm _ _ _ H Em) Em'), (is_max_unique _ _ _ (is_max_perm _ _ _ H EM) EM'). reflexivity.
Qed.

(** Specification: the lines of a complete grid with the given coordinates, x running fastest (by rows) or y running fastest (by columns) *)
Definition by_rows (xs ys : list R) (z : R -> R -> R) : list (list R) := flat_map (fun y => map (fun x => [x; y; z x y]) xs) ys.
Definition by_columns (xs ys : list R) (z : R -> R -> R) : list (list R) := flat_map (fun x => map (fun y => [x; y; z x y]) ys) xs.
Lemma flat_length {A B C} (f : A -> B -> C) (xs : list A) (ys : list B) : length (flat_map (fun y => map (fun x => f x y) xs) ys) = (length xs * length ys)%nat.
Proof. induction ys as [|y ys IH]; cbn [flat_map]; [cbn [length]; lia|]. rewrite app_length, map_length, IH. cbn [length]. lia. Qed.
(** reading any complete grid: the steps, and the heights in the order of the lines *)
Lemma read_grid rows xs ys : NoDup xs -> NoDup ys -> (length xs * length ys = length rows)%nat -> (1 < length rows)%nat ->
  (forall r, In r rows -> length r = 3%nat) -> (forall x, In x (column_of 0 rows) <-> In x xs) -> (forall y, In y (column_of 1 rows) <-> In y ys) ->
  read_xyz rows = Ok (rows_of (length ys) (length xs) (map (fun z => z * 10 ^ 6) (column_of 2 rows)),
                      spread xs / INR (length xs) * 10 ^ 6, spread ys / INR (length ys) * 10 ^ 6).
Proof.
  intros Hx Hy Hl H1 H3 Cx Cy. unfold read_xyz. cbv zeta.
  assert (Eh : length (hd [] rows) = 3%nat) by (destruct rows as [|r rows]; [cbn [length] in H1; lia|apply H3; left; reflexivity]). rewrite Eh.
  assert (Ef : forallb (fun r => Nat.eqb (length r) 3) rows = true) by (apply forallb_forall; intros r Hr; apply Nat.eqb_eq; apply H3; exact Hr). rewrite Ef. cbn [negb].
  destruct (Nat.leb_spec (length rows) 1) as [X|_]; [lia|]. cbn [orb Nat.leb].
  pose proof (unique_perm _ _ Hx Cx) as Px. pose proof (unique_perm _ _ Hy Cy) as Py.
  rewrite (Permutation_length Px), (Permutation_length Py), Hl, Nat.eqb_refl. cbn [negb].
  rewrite (spread_perm _ _ Px), (spread_perm _ _ Py). unfold reshape, column_of at 1. rewrite !map_length, (Nat.mul_comm (length ys)), Hl, Nat.eqb_refl. reflexivity.
Qed.
Lemma rows_of_flat {A B C} (g : A -> B -> C) (xs : list A) : forall ys : list B,
  rows_of (length ys) (length xs) (flat_map (fun y => map (fun x => g x y) xs) ys) = map (fun y => map (fun x => g x y) xs) ys.
Proof.
  induction ys as [|y ys IH]; cbn [flat_map length rows_of map]; [reflexivity|].
  assert (L : length (map (fun x => g x y) xs) = length xs) by apply map_length.
  rewrite <- L at 1 3. rewrite firstn_app, Nat.sub_diag, firstn_all, skipn_app, Nat.sub_diag, skipn_all. cbn [firstn skipn app]. rewrite app_nil_r, IH. reflexivity.
Qed.
(** A file written row by row (x fastest), the rows in any order: the heights come out at their place, in micrometres.  Missing from
    the full claim: files in any other order of the lines, see C57_column_order_refuted. *)
Theorem C57_heights_partial (xs ys : list R) (z : R -> R -> R) : NoDup xs -> NoDup ys -> (1 < length xs * length ys)%nat ->
  exists sx sy, read_xyz (by_rows xs ys z) = Ok (map (fun y => map (fun x => z x y * 10 ^ 6) xs) ys, sx, sy).
Proof.
  intros Hx Hy Hl. assert (Hlen : length (by_rows xs ys z) = (length xs * length ys)%nat) by apply flat_length.
  assert (Nx : xs <> []) by (intros ->; cbn in Hl; lia). assert (Ny : ys <> []) by (intros ->; rewrite Nat.mul_0_r in Hl; lia).
  eexists _, _. rewrite (read_grid (by_rows xs ys z) xs ys Hx Hy); [|lia|lia| | |].
  - f_equal. f_equal. f_equal. unfold column_of, by_rows. rewrite <- (rows_of_flat (fun x y => z x y * 10 ^ 6) xs ys). f_equal.
    clear. induction ys as [|y ys IH]; cbn [flat_map map]; [reflexivity|]. rewrite !map_app, IH, !map_map. reflexivity.
  - intros r Hr. apply in_flat_map in Hr. destruct Hr as (y & _ & Hr). apply in_map_iff in Hr. destruct Hr as (x & <- & _). reflexivity.
  - intros x. unfold column_of, by_rows. rewrite in_map_iff. split.
    + intros (r & <- & Hr). apply in_flat_map in Hr. destruct Hr as (y & _ & Hr). apply in_map_iff in Hr. destruct Hr as (x' & <- & Hx'). exact Hx'.
    + intros Hi. destruct ys as [|y ys]; [contradiction|]. exists [x; y; z x y]. split; [reflexivity|]. apply in_flat_map. exists y. split; [left; reflexivity|]. apply in_map_iff. exists x. auto.
  - intros y. unfold column_of, by_rows. rewrite in_map_iff. split.
    + intros (r & <- & Hr). apply in_flat_map in Hr. destruct Hr as (y' & Hy' & Hr). apply in_map_iff in Hr. destruct Hr as (x & <- & _). exact Hy'.
    + intros Hi. destruct xs as [|x xs]; [contradiction|]. exists [x; y; z x y]. split; [reflexivity|]. apply in_flat_map. exists y. split; [exact Hi|]. apply in_map_iff. exists x. split; [reflexivity|left; reflexivity].
Qed.
(** evenly spaced coordinates *)
Definition spaced (a h : R) (n : nat) : list R := map (fun k => a + INR k * h) (seq 0 n).
Lemma spaced_nodup a h n : h <> 0 -> NoDup (spaced a h n).
Proof.
  intros Hh. unfold spaced. apply FinFun.Injective_map_NoDup; [|apply seq_NoDup]. intros i j E. apply INR_eq. assert (E' : (INR i - INR j) * h = 0) by lra.
  apply Rmult_integral in E'. destruct E'; [lra|contradiction].
Qed.
Lemma spaced_spread a h n : 0 <= h -> (0 < n)%nat -> spread (spaced a h n) = (INR n - 1) * h.
Proof.
  intros Hh Hn. unfold spread.
  assert (N : spaced a h n <> []) by (unfold spaced; destruct n; [lia|discriminate]).
  assert (m1 : is_min a (spaced a h n)).
  { split; [unfold spaced; apply in_map_iff; exists 0%nat; split; [cbn [INR]; lra|apply in_seq; lia]|]. intros y Hy. apply in_map_iff in Hy. destruct Hy as (k & <- & _). pose proof (pos_INR k). nra. }
  assert (m2 : is_max (a + (INR n - 1) * h) (spaced a h n)).
  { split; [unfold spaced; apply in_map_iff; exists (n - 1)%nat; split; [rewrite minus_INR by lia; reflexivity|apply in_seq; lia]|].
    intros y Hy. apply in_map_iff in Hy. destruct Hy as (k & <- & Hk). apply in_seq in Hk. assert (INR k <= INR n - 1) by (replace (INR n - 1) with (INR (n - 1)) by (rewrite minus_INR by lia; reflexivity); apply le_INR; lia). nra. }
  apply lmin_spec in m1. apply lmax_spec in m2. rewrite m1, m2. lra.
Qed.
(** The refutation: for every evenly spaced grid with at least two columns the reported step is (n-1)/n of the true spacing. *)
Theorem C57_step_refuted (a h : R) (n : nat) (ys : list R) (z : R -> R -> R) (data : list (list R)) (sx sy : R) : 0 < h -> (2 <= n)%nat -> NoDup ys -> ys <> [] ->
  read_xyz (by_rows (spaced a h n) ys z) = Ok (data, sx, sy) -> sx = (INR n - 1) / INR n * (h * 10 ^ 6) /\ sx < h * 10 ^ 6.
Proof.
  intros Hh Hn Hy Ny E. assert (Nl : length (spaced a h n) = n) by (unfold spaced; rewrite map_length, seq_length; reflexivity).
  assert (Hlen : length (by_rows (spaced a h n) ys z) = (n * length ys)%nat) by (unfold by_rows; rewrite flat_length, Nl; reflexivity).
  assert (1 <= length ys)%nat by (destruct ys; [contradiction|cbn [length]; lia]).
  rewrite (read_grid _ (spaced a h n) ys) in E.
  - rewrite Nl in E. assert (Es : sx = spread (spaced a h n) / INR n * 10 ^ 6) by congruence. rewrite spaced_spread in Es by (try lra; lia).
    assert (0 < INR n) by (apply lt_0_INR; lia). rewrite Es. split; [field; lra|].
    replace ((INR n - 1) * h / INR n * 10 ^ 6) with (h * 10 ^ 6 - h * 10 ^ 6 / INR n) by (field; lra).
    assert (0 < h * 10 ^ 6 / INR n); [|lra]. apply Rdiv_lt_0_compat; [lra|assumption].
  - apply spaced_nodup. lra.
  - exact Hy.
  - rewrite Nl, Hlen. reflexivity.
  - rewrite Hlen. nia.
  - intros r Hr. apply in_flat_map in Hr. destruct Hr as (y & _ & Hr). apply in_map_iff in Hr. destruct Hr as (x & <- & _). reflexivity.
  - intros x. unfold column_of, by_rows. rewrite in_map_iff. split.
    + intros (r & <- & Hr). apply in_flat_map in Hr. destruct Hr as (y & _ & Hr). apply in_map_iff in Hr. destruct Hr as (x' & <- & Hx'). exact Hx'.
    + intros Hi. destruct ys as [|y ys]; [contradiction|]. exists [x; y; z x y]. split; [reflexivity|]. apply in_flat_map. exists y. split; [left; reflexivity|]. apply in_map_iff. exists x. auto.
  - intros y. unfold column_of, by_rows. rewrite in_map_iff. split.
    + intros (r & <- & Hr). apply in_flat_map in Hr. destruct Hr as (y' & Hy' & Hr). apply in_map_iff in Hr. destruct Hr as (x & <- & _). exact Hy'.
    + intros Hi. assert (Hx : In a (spaced a h n)) by (apply in_map_iff; exists 0%nat; split; [cbn [INR]; lra|apply in_seq; lia]).
      exists [a; y; z a y]. split; [reflexivity|]. apply in_flat_map. exists y. split; [exact Hi|]. apply in_map_iff. exists a. auto.
Qed.
(** The refutation of the heights: the same grid written column by column comes out with the wrong heights. *)
Theorem C57_column_order_refuted : exists sx sy, read_xyz (by_columns [0; 1] [0; 1] (fun x y => x + 2 * y)) = Ok ([[0; 2 * 10 ^ 6]; [1 * 10 ^ 6; 3 * 10 ^ 6]], sx, sy) /\
  map (fun y => map (fun x => (x + 2 * y) * 10 ^ 6) [0; 1]) [0; 1] <> [[0; 2 * 10 ^ 6]; [1 * 10 ^ 6; 3 * 10 ^ 6]].
Proof.
  assert (N : NoDup [0; 1]) by (constructor; [intros [H|[]]; lra|repeat constructor; auto]).
  eexists _, _. split.
  - rewrite (read_grid _ [0; 1] [0; 1] N N); cbn [by_columns flat_map map app length]; try lia.
    + cbn [column_of map nth rows_of length firstn skipn]. repeat (f_equal; try lra).
    + intros r Hr. repeat (destruct Hr as [<-|Hr]; [reflexivity|]). contradiction.
    + intros x. cbn [column_of map nth In]. tauto.
    + intros y. cbn [column_of map nth In]. tauto.
  - cbn [map]. intros H. injection H as H1 H2 H3 H4. lra.
Qed.
(** A grid whose number of lines does not fit, and text that is no table, are rejected. *)
Theorem C57_rejects (rows : list (list R)) : (exists r r', In r rows /\ In r' rows /\ length r <> length r') -> read_xyz rows = Err UnsupportedFileFormatError.
Proof.
  intros (r & r' & Hr & Hr' & N). unfold read_xyz. cbv zeta. destruct (forallb _ rows) eqn:E; [|reflexivity]. exfalso. rewrite forallb_forall in E.
  pose proof (E r Hr) as E1. pose proof (E r' Hr') as E2. apply Nat.eqb_eq in E1, E2. congruence.
Qed.
