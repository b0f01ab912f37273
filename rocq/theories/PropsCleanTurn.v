(** C118: cleaning a mirrored or turned sample gives the mirrored or turned result. *)
From Coq Require Import String Reals List Bool Arith ZArith Lia Lra Permutation.
From Verif Require Import Base RList ModelMath ModelHeights ProofMath ProofHeights PropsMirror.
Import ListNotations.
Local Open Scope R_scope.

(** *** Specification *)
(** the same area with other heights *)
Definition with_points (s : area height) (g : grid) : area height := mkArea g (n_rows s) (n_cols s) (dx s) (dy s).
(** an operation follows the motions [ms]: on the moved area it fails with the same error, or its result is the moved result *)
Definition follows_motion (op : grid -> res grid) (ms : list motion) (s t : area height) : Prop :=
  match op (points s), op (points t) with
  | Ok g, Ok h => moved ms (with_points s g) (with_points t h)
  | Err e, Err e' => e = e'
  | _, _ => False
  end.

Lemma at_gmap (f : height -> height) (s : area height) i j : point_at (with_points s (gmap f (points s))) i j = option_map f (point_at s i j).
Proof. unfold point_at, gmap. cbn [points with_points]. rewrite nth_error_map. destruct (nth_error (points s) i) as [r|]; [|reflexivity]. apply nth_error_map. Qed.
Lemma shaped_gmap f (s : area height) : well_shaped s -> well_shaped (with_points s (gmap f (points s))).
Proof.
  intros [L H]. split; cbn [points n_rows n_cols with_points]; [unfold gmap; rewrite map_length; exact L|]. intros r Hr. apply in_map_iff in Hr as (r' & <- & Hr). rewrite map_length. apply H, Hr.
Qed.
Lemma moves_gmap f m (s t : area height) : moves m s t -> moves m (with_points s (gmap f (points s))) (with_points t (gmap f (points t))).
Proof.
  intros (Ws & Wt & M). split; [apply shaped_gmap, Ws|]. split; [apply shaped_gmap, Wt|].
  destruct m; destruct M as (A & B & C & D & P); cbn [n_rows n_cols dx dy with_points]; (split; [exact A|]; split; [exact B|]; split; [exact C|]; split; [exact D|]); intros i j Hi Hj; rewrite !at_gmap, P by assumption; reflexivity.
Qed.
Lemma moved_gmap f ms : forall s t : area height, moved ms s t -> moved ms (with_points s (gmap f (points s))) (with_points t (gmap f (points t))).
Proof.
  induction ms as [|m ms IH]; cbn [moved]; intros s t H; [subst; reflexivity|]. destruct H as (u & M & H). exists (with_points u (gmap f (points u))). split; [apply moves_gmap, M|apply IH, H].
Qed.

Lemma nanmean_perm l l' : Permutation l l' -> nanmean l = nanmean l'.
Proof.
  intros P. assert (Q := measured_perm _ _ P). unfold nanmean. destruct (measured l) as [|a m] eqn:A; [apply Permutation_nil in Q; rewrite Q; reflexivity|]. destruct (measured l') as [|b m'] eqn:B; [apply Permutation_sym, Permutation_nil in Q; discriminate|]. rewrite (meanR_perm _ _ Q). reflexivity.
Qed.
Section Turned.
Context (ms : list motion) (s t : area height) (M : moved ms s t).
Let P : Permutation (flat (points s)) (flat (points t)) := moved_permutation ms s t M.
Let Q : Permutation (measured (flat (points s))) (measured (flat (points t))) := measured_perm _ _ P.
(** Removing outliers (both methods, and the error of an unknown one). *)
Theorem C118_outliers : forall n method, follows_motion (remove_outliers n method) ms s t.
Proof using M.
  clearbody Q P.
  intros n method. unfold follows_motion, remove_outliers. cbv zeta.
  assert (V : forall l l', Permutation l l' -> stdR l = stdR l').
  { intros l l' H. unfold stdR, varR. rewrite (meanR_perm _ _ H). f_equal. apply meanR_perm, Permutation_map, H. }
  rewrite <- (V _ _ Q), <- (meanR_perm _ _ Q), <- (medianR_perm _ _ Q).
  rewrite <- (medianR_perm _ _ (Permutation_map (fun y => Rabs (y - medianR (measured (flat (points s))))) Q)).
  destruct (String.eqb method "mean"); [apply moved_gmap, M|]. destruct (String.eqb method "median"); [apply moved_gmap, M|reflexivity].
Qed.
(** Cutting off the highest and lowest part. *)
Theorem C118_threshold : forall u l, follows_motion (threshold u l) ms s t.
Proof using M.
  clearbody Q P.
  intros u l. unfold follows_motion, threshold. cbv zeta. rewrite <- (sortR_perm_eq _ _ Q).
  destruct (Rle_dec 100 (l + u)); [reflexivity|]. destruct (argclosest (u / 100) _) as [i|e]; [|reflexivity]. cbn [rbind].
  destruct (argclosest (1 - l / 100) _) as [j|e]; [|reflexivity]. cbn [rbind]. apply moved_gmap, M.
Qed.
Theorem C118_center : follows_motion (fun g => Ok (center g)) ms s t.
Proof using M.
  clearbody Q P.
  unfold follows_motion, center. assert (E : nanmean (flat (points s)) = nanmean (flat (points t))) by (apply nanmean_perm, P).
  rewrite <- E. apply moved_gmap, M.
Qed.
Theorem C118_zero : follows_motion zero ms s t.
Proof using M.
  clearbody Q P.
  unfold follows_motion, zero. assert (E : nanmin (flat (points s)) = nanmin (flat (points t))) by (apply lmin_perm, Q).
  destruct (flat (points s)) as [|a l] eqn:A; [apply Permutation_nil in P; rewrite P; reflexivity|]. destruct (flat (points t)) as [|b l'] eqn:B; [apply Permutation_sym, Permutation_nil in P; discriminate|].
  rewrite <- E. apply moved_gmap, M.
Qed.
Theorem C118_invert : follows_motion invert ms s t.
Proof using M.
  clearbody Q P.
  unfold follows_motion, invert. assert (E : npmin (flat (points s)) = npmin (flat (points t))) by (unfold npmin; rewrite (nan_perm _ _ P), (lmin_perm _ _ Q); reflexivity).
  assert (F : npmax (flat (points s)) = npmax (flat (points t))) by (unfold npmax; rewrite (nan_perm _ _ P), (lmax_perm _ _ Q); reflexivity).
  destruct (flat (points s)) as [|a l] eqn:A; [apply Permutation_nil in P; rewrite P; reflexivity|]. destruct (flat (points t)) as [|b l'] eqn:B; [apply Permutation_sym, Permutation_nil in P; discriminate|].
  rewrite <- E, <- F. apply moved_gmap, M.
Qed.
End Turned.
(** a sample that is not square, with a gap and an outlier, turned by a quarter: the same point goes *)
Theorem C118_example : exists s t : area height, quarter_turn s t /\ points s = [[Some 1; Some 2; None]; [Some 3; Some 4; Some 5]] /\
  follows_motion (remove_outliers 1 "mean") [Left_right; Transposed] s t /\ n_rows t = 3%nat /\ points t = [[None; Some 5]; [Some 2; Some 4]; [Some 1; Some 3]].
Proof.
  set (s := mkArea [[Some 1; Some 2; None]; [Some 3; Some 4; Some 5]] 2 3 1 2). set (t := mkArea [[None; Some 5]; [Some 2; Some 4]; [Some 1; Some 3]] 3 2 2 1).
  assert (T : quarter_turn s t).
  { split; [split; [reflexivity|intros r [<-|[<-|[]]]; reflexivity]|]. split; [split; [reflexivity|intros r [<-|[<-|[<-|[]]]]; reflexivity]|].
    do 4 (split; [reflexivity|]). cbn [n_rows n_cols s t]. intros [|[|[|i]]] [|[|j]] Hi Hj; cbn in Hi, Hj; try lia; reflexivity. }
  exists s, t. split; [exact T|]. split; [reflexivity|]. split; [|split; reflexivity]. apply C118_outliers, C114_quarter_turn, T.
Qed.
