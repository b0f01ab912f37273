(** Lists of reals: sums, means, extrema, sorting.  Library for the numeric models (no surfalize code here). *)
From Coq Require Import Reals List Lra Lia Permutation Arith.
Import ListNotations.
Local Open Scope R_scope.

Definition Rleb (x y : R) : bool := if Rle_dec x y then true else false.
Definition Rltb (x y : R) : bool := if Rlt_dec x y then true else false.
Lemma Rleb_spec x y : Rleb x y = true <-> x <= y.
Proof. unfold Rleb. destruct (Rle_dec x y); split; intros; auto; try discriminate; contradiction. Qed.
Lemma Rleb_false x y : Rleb x y = false <-> y < x.
Proof. unfold Rleb. destruct (Rle_dec x y); split; intros; auto; try discriminate; lra. Qed.
Lemma Rltb_spec x y : Rltb x y = true <-> x < y.
Proof. unfold Rltb. destruct (Rlt_dec x y); split; intros; auto; try discriminate; contradiction. Qed.
Lemma Rltb_false x y : Rltb x y = false <-> y <= x.
Proof. unfold Rltb. destruct (Rlt_dec x y); split; intros; auto; try discriminate; lra. Qed.

(** ** Sums *)
Definition sumR (l : list R) : R := fold_right Rplus 0 l.
Lemma sumR_cons x l : sumR (x :: l) = x + sumR l. Proof. reflexivity. Qed.
Lemma sumR_nil : sumR [] = 0. Proof. reflexivity. Qed.
Lemma sumR_app l l' : sumR (l ++ l') = sumR l + sumR l'.
Proof. induction l as [|x l IH]; cbn [app map]; rewrite ?sumR_cons, ?sumR_nil; [lra|]. rewrite IH. lra. Qed.
Lemma sumR_map_plus {A} (f g : A -> R) l : sumR (map (fun x => f x + g x) l) = sumR (map f l) + sumR (map g l).
Proof. induction l as [|x l IH]; cbn [app map]; rewrite ?sumR_cons, ?sumR_nil; [lra|]. rewrite IH. lra. Qed.
Lemma sumR_map_minus {A} (f g : A -> R) l : sumR (map (fun x => f x - g x) l) = sumR (map f l) - sumR (map g l).
Proof. induction l as [|x l IH]; cbn [app map]; rewrite ?sumR_cons, ?sumR_nil; [lra|]. rewrite IH. lra. Qed.
Lemma sumR_map_scal {A} (f : A -> R) k l : sumR (map (fun x => k * f x) l) = k * sumR (map f l).
Proof. induction l as [|x l IH]; cbn [app map]; rewrite ?sumR_cons, ?sumR_nil; [lra|]. rewrite IH. lra. Qed.
Lemma sumR_map_const {A} (c : R) (l : list A) : sumR (map (fun _ => c) l) = INR (length l) * c.
Proof.
  induction l as [|x l IH]; [cbn [map length INR]; rewrite sumR_nil; lra|]. cbn [map length]. rewrite sumR_cons, IH, S_INR. lra.
Qed.
Lemma sumR_nonneg l : (forall x, In x l -> 0 <= x) -> 0 <= sumR l.
Proof.
  induction l as [|x l IH]; intros H; cbn [map]; rewrite ?sumR_cons, ?sumR_nil; [lra|].
  assert (0 <= x) by (apply H; left; auto). assert (0 <= sumR l) by (apply IH; intros; apply H; right; auto).
  lra.
Qed.
Lemma sumR_le {A} (f g : A -> R) l : (forall x, In x l -> f x <= g x) -> sumR (map f l) <= sumR (map g l).
Proof.
  induction l as [|x l IH]; intros H; cbn [map]; rewrite ?sumR_cons, ?sumR_nil; [lra|].
  assert (f x <= g x) by (apply H; left; auto).
  assert (sumR (map f l) <= sumR (map g l)) by (apply IH; intros; apply H; right; auto).
  lra.
Qed.
Lemma sumR_ext {A} (f g : A -> R) l : (forall x, In x l -> f x = g x) -> sumR (map f l) = sumR (map g l).
Proof. intros H. f_equal. apply map_ext_in. exact H. Qed.
Lemma sumR_zero l : (forall x, In x l -> 0 <= x) -> sumR l = 0 -> forall x, In x l -> x = 0.
Proof.
  induction l as [|y l IH]; intros H E x Hin; [destruct Hin|].
  assert (0 <= y) by (apply H; left; auto).
  assert (0 <= sumR l) by (apply sumR_nonneg; intros; apply H; right; auto).
  rewrite sumR_cons in E.
  destruct Hin as [<-|Hin]; [lra|]. apply IH; auto; [intros; apply H; right; auto|lra].
Qed.
Lemma sumR_perm l l' : Permutation l l' -> sumR l = sumR l'.
Proof. induction 1; rewrite ?sumR_cons; lra. Qed.
Lemma sumR_In_le l x : (forall y, In y l -> 0 <= y) -> In x l -> x <= sumR l.
Proof.
  induction l as [|y l IH]; intros H Hin; [destruct Hin|]. rewrite sumR_cons.
  assert (0 <= sumR l) by (apply sumR_nonneg; intros; apply H; right; auto).
  assert (0 <= y) by (apply H; left; auto).
  destruct Hin as [<-|Hin]; [lra|]. assert (x <= sumR l) by (apply IH; auto; intros; apply H; right; auto). lra.
Qed.

(** ** Mean *)
Definition meanR (l : list R) : R := sumR l / INR (length l).
Lemma INR_len_pos {A} (l : list A) : l <> [] -> 0 < INR (length l).
Proof. destruct l; [congruence|]. intros _. apply lt_0_INR. cbn. lia. Qed.
Lemma meanR_spec l : l <> [] -> meanR l * INR (length l) = sumR l.
Proof. intros H. unfold meanR. field. apply Rgt_not_eq, INR_len_pos, H. Qed.
Lemma meanR_map_plus {A} (f g : A -> R) l : meanR (map (fun x => f x + g x) l) = meanR (map f l) + meanR (map g l).
Proof. unfold meanR. rewrite sumR_map_plus, !map_length. unfold Rdiv. lra. Qed.
Lemma meanR_map_minus {A} (f g : A -> R) l : meanR (map (fun x => f x - g x) l) = meanR (map f l) - meanR (map g l).
Proof. unfold meanR. rewrite sumR_map_minus, !map_length. unfold Rdiv. lra. Qed.
Lemma meanR_map_scal {A} (f : A -> R) k l : meanR (map (fun x => k * f x) l) = k * meanR (map f l).
Proof. unfold meanR. rewrite sumR_map_scal, !map_length. unfold Rdiv. lra. Qed.
Lemma meanR_map_const {A} (c : R) (l : list A) : l <> [] -> meanR (map (fun _ => c) l) = c.
Proof.
  intros H. unfold meanR. rewrite sumR_map_const, map_length. field. apply Rgt_not_eq, INR_len_pos, H.
Qed.
Lemma meanR_le {A} (f g : A -> R) l : (forall x, In x l -> f x <= g x) -> meanR (map f l) <= meanR (map g l).
Proof.
  intros H. unfold meanR. rewrite !map_length. destruct l as [|a l]; [unfold sumR; cbn; lra|].
  apply Rmult_le_compat_r; [|apply sumR_le; exact H].
  left. apply Rinv_0_lt_compat, INR_len_pos. discriminate.
Qed.
Lemma meanR_ext {A} (f g : A -> R) l : (forall x, In x l -> f x = g x) -> meanR (map f l) = meanR (map g l).
Proof. intros H. f_equal. apply map_ext_in. exact H. Qed.
Lemma meanR_nonneg l : (forall x, In x l -> 0 <= x) -> 0 <= meanR l.
Proof.
  intros H. unfold meanR. destruct l as [|a l]; [unfold sumR; cbn; lra|].
  apply Rmult_le_pos; [apply sumR_nonneg; exact H|]. left. apply Rinv_0_lt_compat, INR_len_pos. discriminate.
Qed.
Lemma meanR_perm l l' : Permutation l l' -> meanR l = meanR l'.
Proof. intros H. unfold meanR. rewrite (sumR_perm _ _ H), (Permutation_length H). reflexivity. Qed.
Lemma meanR_between l lo hi : l <> [] -> (forall x, In x l -> lo <= x <= hi) -> lo <= meanR l <= hi.
Proof.
  intros Hl H. rewrite <- (map_id l).
  split.
  - rewrite <- (meanR_map_const lo l Hl) at 1. apply meanR_le. intros x Hx. apply H, Hx.
  - rewrite <- (meanR_map_const hi l Hl). apply meanR_le. intros x Hx. apply H, Hx.
Qed.
Lemma meanR_shift l c : l <> [] -> meanR (map (fun x => x + c) l) = meanR l + c.
Proof.
  intros H. rewrite (meanR_map_plus (fun x => x) (fun _ => c)), map_id, (meanR_map_const c l H). reflexivity.
Qed.
Lemma meanR_zero l : l <> [] -> (forall x, In x l -> 0 <= x) -> meanR l = 0 -> forall x, In x l -> x = 0.
Proof.
  intros Hl H E. apply sumR_zero; auto. rewrite <- meanR_spec by exact Hl. rewrite E. lra.
Qed.

(** ** Extrema of non-empty lists *)
Definition is_min (m : R) (l : list R) : Prop := In m l /\ forall y, In y l -> m <= y.
Definition is_max (m : R) (l : list R) : Prop := In m l /\ forall y, In y l -> y <= m.
Fixpoint minR (x : R) (l : list R) : R := match l with [] => x | y :: l' => Rmin x (minR y l') end.
Fixpoint maxR (x : R) (l : list R) : R := match l with [] => x | y :: l' => Rmax x (maxR y l') end.
Definition lmin (l : list R) : option R := match l with [] => None | x :: l' => Some (minR x l') end.
Definition lmax (l : list R) : option R := match l with [] => None | x :: l' => Some (maxR x l') end.

Lemma minR_is_min l : forall x, is_min (minR x l) (x :: l).
Proof.
  induction l as [|y l IH]; intros x; cbn [minR].
  - split; [left; auto|]. intros z [<-|[]]. lra.
  - destruct (IH y) as [Hin Hle]. split.
    + unfold Rmin. destruct (Rle_dec x (minR y l)); [left; auto|right; auto].
    + intros z [<-|Hz]; [apply Rmin_l|]. eapply Rle_trans; [apply Rmin_r|auto].
Qed.
Lemma maxR_is_max l : forall x, is_max (maxR x l) (x :: l).
Proof.
  induction l as [|y l IH]; intros x; cbn [maxR].
  - split; [left; auto|]. intros z [<-|[]]. lra.
  - destruct (IH y) as [Hin Hle]. split.
    + unfold Rmax. destruct (Rle_dec x (maxR y l)); [right; auto|left; auto].
    + intros z [<-|Hz]; [apply Rmax_l|]. eapply Rle_trans; [|apply Rmax_r]. auto.
Qed.
Lemma lmin_spec l m : lmin l = Some m <-> is_min m l.
Proof.
  destruct l as [|x l]; cbn.
  - split; [discriminate|]. intros [[] _].
  - split.
    + intros E; injection E as <-. apply minR_is_min.
    + intros [Hin Hle]. f_equal. destruct (minR_is_min l x) as [Hin' Hle'].
      apply Rle_antisym; auto.
Qed.
Lemma lmax_spec l m : lmax l = Some m <-> is_max m l.
Proof.
  destruct l as [|x l]; cbn.
  - split; [discriminate|]. intros [[] _].
  - split.
    + intros E; injection E as <-. apply maxR_is_max.
    + intros [Hin Hle]. f_equal. destruct (maxR_is_max l x) as [Hin' Hle'].
      apply Rle_antisym; auto.
Qed.
Lemma is_min_unique l a b : is_min a l -> is_min b l -> a = b.
Proof. intros [? ?] [? ?]. apply Rle_antisym; auto. Qed.
Lemma is_max_unique l a b : is_max a l -> is_max b l -> a = b.
Proof. intros [? ?] [? ?]. apply Rle_antisym; auto. Qed.
Lemma lmin_ex l : l <> [] -> exists m, lmin l = Some m.
Proof. destruct l; [congruence|]. cbn. eauto. Qed.
Lemma lmax_ex l : l <> [] -> exists m, lmax l = Some m.
Proof. destruct l; [congruence|]. cbn. eauto. Qed.
Lemma is_min_map_mono (f : R -> R) l m : (forall x y, x <= y -> f x <= f y) -> is_min m l -> is_min (f m) (map f l).
Proof.
  intros Hf [Hin Hle]. split; [apply in_map; auto|]. intros y Hy. apply in_map_iff in Hy as (z & <- & Hz). auto.
Qed.
Lemma is_max_map_mono (f : R -> R) l m : (forall x y, x <= y -> f x <= f y) -> is_max m l -> is_max (f m) (map f l).
Proof.
  intros Hf [Hin Hle]. split; [apply in_map; auto|]. intros y Hy. apply in_map_iff in Hy as (z & <- & Hz). auto.
Qed.
Lemma is_min_map_anti (f : R -> R) l m : (forall x y, x <= y -> f y <= f x) -> is_max m l -> is_min (f m) (map f l).
Proof.
  intros Hf [Hin Hle]. split; [apply in_map; auto|]. intros y Hy. apply in_map_iff in Hy as (z & <- & Hz). auto.
Qed.
Lemma is_max_map_anti (f : R -> R) l m : (forall x y, x <= y -> f y <= f x) -> is_min m l -> is_max (f m) (map f l).
Proof.
  intros Hf [Hin Hle]. split; [apply in_map; auto|]. intros y Hy. apply in_map_iff in Hy as (z & <- & Hz). auto.
Qed.
Lemma is_min_perm l l' m : Permutation l l' -> is_min m l -> is_min m l'.
Proof.
  intros P [H1 H2]. split; [eapply Permutation_in; eauto|]. intros y Hy. apply H2.
  eapply Permutation_in; [apply Permutation_sym; exact P|exact Hy].
Qed.
Lemma is_max_perm l l' m : Permutation l l' -> is_max m l -> is_max m l'.
Proof.
  intros P [H1 H2]. split; [eapply Permutation_in; eauto|]. intros y Hy. apply H2.
  eapply Permutation_in; [apply Permutation_sym; exact P|exact Hy].
Qed.

(** ** Sorting (ascending) *)
Fixpoint insertR (x : R) (l : list R) : list R :=
  match l with [] => [x] | y :: l' => if Rle_dec x y then x :: l else y :: insertR x l' end.
Fixpoint sortR (l : list R) : list R := match l with [] => [] | x :: l' => insertR x (sortR l') end.

Inductive sorted : list R -> Prop :=
| sorted_nil : sorted []
| sorted_cons x l : (forall y, In y l -> x <= y) -> sorted l -> sorted (x :: l).

Lemma insertR_perm x l : Permutation (x :: l) (insertR x l).
Proof.
  induction l as [|y l IH]; cbn; auto. destruct (Rle_dec x y); auto.
  rewrite perm_swap. constructor. exact IH.
Qed.
Lemma sortR_perm l : Permutation l (sortR l).
Proof. induction l as [|x l IH]; cbn; auto. rewrite IH at 1. apply insertR_perm. Qed.
Lemma insertR_sorted x l : sorted l -> sorted (insertR x l).
Proof.
  induction 1 as [|y l Hy Hl IH]; cbn.
  - constructor; [intros ? []|constructor].
  - destruct (Rle_dec x y) as [L|L].
    + constructor; [|constructor; auto]. intros z [<-|Hz]; [auto|]. apply Hy in Hz. lra.
    + constructor; [|exact IH]. intros z Hz.
      eapply Permutation_in in Hz; [|apply Permutation_sym, insertR_perm].
      destruct Hz as [<-|Hz]; [lra|auto].
Qed.
Lemma sortR_sorted l : sorted (sortR l).
Proof. induction l as [|x l IH]; cbn; [constructor|apply insertR_sorted, IH]. Qed.
Lemma sortR_length l : length (sortR l) = length l.
Proof. symmetry. apply Permutation_length, sortR_perm. Qed.
Lemma sortR_In x l : In x (sortR l) <-> In x l.
Proof. split; apply Permutation_in; [apply Permutation_sym|]; apply sortR_perm. Qed.
Lemma sorted_nth l : sorted l -> forall i j d, (i <= j < length l)%nat -> nth i l d <= nth j l d.
Proof.
  induction 1 as [|x l Hx Hl IH]; intros i j d Hij; cbn in Hij; [lia|].
  destruct i, j; cbn; try lia; try lra.
  - apply Hx. apply nth_In. lia.
  - apply IH. lia.
Qed.
Lemma sorted_unique l l' : sorted l -> sorted l' -> Permutation l l' -> l = l'.
Proof.
  intros Hl. revert l'. induction Hl as [|x l Hx Hl IH]; intros l' Hl' P.
  - apply Permutation_nil in P. auto.
  - destruct Hl' as [|y l' Hy Hl'].
    + apply Permutation_sym, Permutation_nil in P. discriminate.
    + assert (x = y).
      { assert (Hin : In x (y :: l')) by (eapply Permutation_in; [exact P|left; auto]).
        assert (Hin' : In y (x :: l)) by (eapply Permutation_in; [apply Permutation_sym; exact P|left; auto]).
        destruct Hin as [->|Hin]; auto. destruct Hin' as [->|Hin']; auto.
        apply Hy in Hin. apply Hx in Hin'. lra. }
      subst y. f_equal. apply IH; auto. eapply Permutation_cons_inv; eauto.
Qed.
Lemma sortR_perm_eq l l' : Permutation l l' -> sortR l = sortR l'.
Proof.
  intros P. apply sorted_unique; auto using sortR_sorted.
  rewrite <- !sortR_perm. exact P.
Qed.
Lemma sorted_map_mono (f : R -> R) l : (forall x y, x <= y -> f x <= f y) -> sorted l -> sorted (map f l).
Proof.
  intros Hf. induction 1 as [|x l Hx Hl IH]; cbn; constructor; auto.
  intros y Hy. apply in_map_iff in Hy as (z & <- & Hz). auto.
Qed.
Lemma sortR_map_mono (f : R -> R) l : (forall x y, x <= y -> f x <= f y) -> sortR (map f l) = map f (sortR l).
Proof.
  intros Hf. apply sorted_unique.
  - apply sortR_sorted.
  - apply sorted_map_mono; auto. apply sortR_sorted.
  - rewrite <- sortR_perm. apply Permutation_map, sortR_perm.
Qed.
Lemma sorted_app l l' : sorted l -> sorted l' -> (forall x y, In x l -> In y l' -> x <= y) -> sorted (l ++ l').
Proof.
  induction 1 as [|x l Hx Hl IH]; intros Hl' H; cbn; auto. constructor.
  - intros y Hy. apply in_app_iff in Hy as [Hy|Hy]; [auto|]. apply H; [left; auto|auto].
  - apply IH; auto. intros; apply H; [right; auto|auto].
Qed.

(** ** Median: middle element, or mean of the two middle elements, of the sorted list. *)
Definition medianR (l : list R) : R :=
  let s := sortR l in let n := length l in
  if Nat.even n then (nth (n / 2 - 1) s 0 + nth (n / 2) s 0) / 2 else nth (n / 2) s 0.
Lemma medianR_between l lo hi : l <> [] -> (forall x, In x l -> lo <= x <= hi) -> lo <= medianR l <= hi.
Proof.
  intros Hl H.
  assert (Hn : (0 < length l)%nat) by (destruct l; cbn; [congruence|lia]).
  assert (Hi : forall i, (i < length l)%nat -> lo <= nth i (sortR l) 0 <= hi).
  { intros i Hi. apply H. apply sortR_In. apply nth_In. now rewrite sortR_length. }
  unfold medianR. destruct (Nat.even (length l)) eqn:Ev.
  - assert (length l / 2 - 1 < length l)%nat by (apply Nat.le_lt_trans with (length l / 2)%nat; [lia|apply Nat.div_lt; lia]).
    assert (length l / 2 < length l)%nat by (apply Nat.div_lt; lia).
    assert (A := Hi _ H0). assert (B := Hi _ H1). lra.
  - apply Hi. apply Nat.div_lt; lia.
Qed.
Lemma medianR_shift l c : l <> [] -> medianR (map (fun x => x + c) l) = medianR l + c.
Proof.
  intros Hl. assert (Hn : (0 < length l)%nat) by (destruct l; cbn; [congruence|lia]).
  unfold medianR. rewrite map_length, sortR_map_mono by (intros; lra).
  assert (X : forall i, (i < length l)%nat -> nth i (map (fun x => x + c) (sortR l)) 0 = nth i (sortR l) 0 + c).
  { intros i Hi. rewrite nth_indep with (d' := 0 + c) by (rewrite map_length, sortR_length; exact Hi).
    apply (map_nth (fun x => x + c)). }
  destruct (Nat.even (length l)).
  - rewrite !X; [lra| |]; try (apply Nat.div_lt; lia).
    apply Nat.le_lt_trans with (length l / 2)%nat; [lia|apply Nat.div_lt; lia].
  - apply X. apply Nat.div_lt; lia.
Qed.
Lemma medianR_perm l l' : Permutation l l' -> medianR l = medianR l'.
Proof. intros P. unfold medianR. rewrite (sortR_perm_eq _ _ P), (Permutation_length P). reflexivity. Qed.

(** ** Population standard deviation *)
Definition varR (l : list R) : R := meanR (map (fun x => (x - meanR l) * (x - meanR l)) l).
Definition stdR (l : list R) : R := sqrt (varR l).
Lemma varR_nonneg l : 0 <= varR l.
Proof. apply meanR_nonneg. intros x Hx. apply in_map_iff in Hx as (y & <- & _). apply Rle_0_sqr. Qed.
Lemma stdR_nonneg l : 0 <= stdR l. Proof. apply sqrt_pos. Qed.
Lemma varR_shift l c : l <> [] -> varR (map (fun x => x + c) l) = varR l.
Proof.
  intros Hl. unfold varR. rewrite meanR_shift by exact Hl. rewrite map_map. apply meanR_ext. intros x _.
  replace (x + c - (meanR l + c)) with (x - meanR l) by lra. reflexivity.
Qed.
