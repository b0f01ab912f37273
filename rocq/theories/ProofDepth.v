(** Lemmas about ModelDepth: medians with a majority, drifting extrema. *)
From Coq Require Import String.
From Coq Require Import Reals List Bool Arith ZArith Lia Lra Permutation.
From Verif Require Import Base RList ModelMath ModelHeights ModelGeom ModelAcf ModelFourier ModelDepth ProofMath ProofHeights ProofGeom PropsMath.
Import ListNotations.
Local Open Scope R_scope.

Lemma loop_ok {A B} (f : A -> res B) (h : A -> B) l : (forall x, In x l -> f x = Ok (h x)) -> loop f l = Ok (map h l).
Proof.
  induction l as [|x l IH]; intros H; cbn [loop map]; [reflexivity|]. rewrite (H x) by (left; reflexivity). cbn [rbind].
  rewrite IH by (intros y Hy; apply H; right; exact Hy). reflexivity.
Qed.
Lemma loop_inv {A B} (f : A -> res B) l : forall ys, loop f l = Ok ys -> Forall2 (fun x y => f x = Ok y) l ys.
Proof.
  induction l as [|x l IH]; intros ys H; cbn [loop] in H.
  - assert (ys = []) by congruence. subst. constructor.
  - destruct (f x) as [y|] eqn:E; [|discriminate H]. cbn [rbind] in H. destruct (loop f l) as [zs|]; [|discriminate H]. cbn [rbind] in H.
    assert (ys = y :: zs) by congruence. subst. constructor; [exact E|]. apply IH. reflexivity.
Qed.
Lemma all_some_map l : all_some (map Some l) = Some l.
Proof. induction l as [|x l IH]; cbn [all_some map]; [reflexivity|]. rewrite IH. reflexivity. Qed.

(** *** Median of a list with a majority *)
Lemma filter_perm {A} (f : A -> bool) l l' : Permutation l l' -> length (List.filter f l) = length (List.filter f l').
Proof. induction 1; cbn [List.filter]; repeat (destruct (f _); cbn [length]); congruence. Qed.
Lemma sorted_low s v : sorted s -> forall i, (i < length s)%nat -> nth i s 0 < v -> (i < length (List.filter (fun x => Rltb x v) s))%nat.
Proof.
  induction 1 as [|x l Hx Hl IH]; intros i Hi Hv; cbn [length] in Hi; [lia|]. cbn [List.filter]. destruct i as [|i]; cbn [nth] in Hv.
  - assert (E : Rltb x v = true) by (apply Rltb_spec; lra). rewrite E. cbn [length]. lia.
  - assert (x <= nth i l 0) by (apply Hx, nth_In; lia). assert (E : Rltb x v = true) by (apply Rltb_spec; lra). rewrite E. cbn [length].
    specialize (IH i ltac:(lia) Hv). lia.
Qed.
Lemma sorted_high s v : sorted s -> forall i, (i < length s)%nat -> v < nth i s 0 -> (length s - i <= length (List.filter (fun x => Rltb v x) s))%nat.
Proof.
  induction 1 as [|x l Hx Hl IH]; intros i Hi Hv; cbn [length] in *; [lia|]. cbn [List.filter]. destruct i as [|i]; cbn [nth] in Hv.
  - assert (E : Rltb v x = true) by (apply Rltb_spec; lra). rewrite E. cbn [length].
    destruct l as [|y l]; [cbn; lia|]. specialize (IH 0%nat ltac:(cbn; lia)). cbn [nth] in IH. specialize (Hx y ltac:(left; reflexivity)).
    specialize (IH ltac:(lra)). cbn [length] in *. lia.
  - specialize (IH i ltac:(lia) Hv). destruct (Rltb v x); cbn [length]; lia.
Qed.
Definition other (v x : R) : bool := if Req_EM_T x v then false else true.
Lemma other_ge (f : R -> bool) v l : (forall x, f x = true -> x <> v) -> (length (List.filter f l) <= length (List.filter (other v) l))%nat.
Proof.
  intros H. induction l as [|x l IH]; cbn [List.filter]; [lia|]. destruct (f x) eqn:E.
  - unfold other at 1. destruct (Req_EM_T x v) as [C|_]; [exfalso; exact (H x E C)|]. cbn [length]. lia.
  - destruct (other v x); cbn [length]; lia.
Qed.
Lemma median_majority l v : (2 * length (List.filter (other v) l) < length l)%nat -> medianR l = v.
Proof.
  intros H. set (c := length (List.filter (other v) l)) in *. set (n := length l) in *. assert (Ls : length (sortR l) = n) by apply sortR_length.
  assert (M : forall i, (c <= i < n - c)%nat -> nth i (sortR l) 0 = v).
  { intros i Hi. destruct (Rtotal_order (nth i (sortR l) 0) v) as [L|[E|G]]; [|exact E|].
    - exfalso. pose proof (sorted_low _ v (sortR_sorted l) i ltac:(lia) L) as B. rewrite <- (filter_perm _ _ _ (sortR_perm l)) in B.
      pose proof (other_ge (fun x => Rltb x v) v l) as O. cbv beta in O. specialize (O ltac:(intros x Hx; apply Rltb_spec in Hx; lra)). fold c in O. lia.
    - exfalso. pose proof (sorted_high _ v (sortR_sorted l) i ltac:(lia) G) as B. rewrite <- (filter_perm _ _ _ (sortR_perm l)) in B.
      pose proof (other_ge (fun x => Rltb v x) v l) as O. cbv beta in O. specialize (O ltac:(intros x Hx; apply Rltb_spec in Hx; lra)). fold c in O. lia. }
  unfold medianR. fold n. pose proof (Nat.div_mod n 2 ltac:(lia)) as D. pose proof (Nat.mod_upper_bound n 2 ltac:(lia)) as U.
  destruct (Nat.even n) eqn:Ev.
  - apply Nat.even_spec in Ev. destruct Ev as [m Em]. assert (n / 2 = m)%nat by lia. rewrite !M by lia. lra.
  - apply M. lia.
Qed.

(** *** Extrema of the same function *)
Lemma same_extremum s s' : 0 < s_a s -> 0 < s_p s -> 0 < s_a s' -> 0 < s_p s' -> (forall x, sin_at s x = sin_at s' x) -> first_extremum s = first_extremum s'.
Proof.
  intros A P A' P' E. destruct (C39_first_extremum_partial s A P) as (N & X & L). destruct (C39_first_extremum_partial s' A' P') as (N' & X' & L').
  cbv zeta in *. apply Rle_antisym.
  - apply L; [exact N'|]. destruct X' as [X'|X']; [left|right]; intros z; rewrite !E; apply X'.
  - apply L'; [exact N|]. destruct X as [X|X]; [left|right]; intros z; rewrite <- !E; apply X.
Qed.

(** *** Drifting extrema *)
Section Drift.
Variables (h D X : R).
Hypothesis Hh : 0 < h.
Definition K (i : nat) : Z := Int_part ((X + INR i * D) / h).
Definition pos (i : nat) : R := X + INR i * D - IZR (K i) * h.
Lemma pos_range i : 0 <= pos i < h.
Proof.
  unfold pos, K. destruct (base_Int_part ((X + INR i * D) / h)) as [A B]. set (k := Int_part _) in *.
  assert (E : X + INR i * D = (X + INR i * D) / h * h) by (field; lra). rewrite E at 1 2. set (q := (X + INR i * D) / h) in *.
  replace (q * h - IZR k * h) with ((q - IZR k) * h) by ring. split; [apply Rmult_le_pos; lra|].
  rewrite <- (Rmult_1_l h) at 2. apply Rmult_lt_compat_r; lra.
Qed.
Lemma step_pos i : pos (S i) - pos i = D - IZR (K (S i) - K i) * h.
Proof. unfold pos. rewrite S_INR, minus_IZR. ring. Qed.
Hypothesis HD : Rabs D < h.
Definition moved (i : nat) : bool := negb (Z.eqb (K (S i)) (K i)).
Lemma step_K i : (0 <= D -> (0 <= K (S i) - K i <= 1)%Z) /\ (D < 0 -> (-1 <= K (S i) - K i <= 0)%Z).
Proof.
  pose proof (step_pos i) as E. pose proof (pos_range i) as A. pose proof (pos_range (S i)) as B. set (w := (K (S i) - K i)%Z) in *.
  apply Rabs_def2 in HD. destruct HD as [H1 H2]. clear HD.
  assert (L : forall k : Z, IZR k * h < 2 * h -> (k <= 1)%Z). { intros k Hk. apply Rmult_lt_reg_r in Hk; [|exact Hh]. apply lt_IZR in Hk. lia. }
  assert (G : forall k : Z, - (2 * h) < IZR k * h -> (-1 <= k)%Z). { intros k Hk. replace (- (2 * h)) with (-2 * h) in Hk by ring. apply Rmult_lt_reg_r in Hk; [|exact Hh]. apply lt_IZR in Hk. lia. }
  assert (L0 : forall k : Z, IZR k * h < h -> (k <= 0)%Z). { intros k Hk. rewrite <- (Rmult_1_l h) in Hk at 2. apply Rmult_lt_reg_r in Hk; [|exact Hh]. apply lt_IZR in Hk. lia. }
  assert (G0 : forall k : Z, - h < IZR k * h -> (0 <= k)%Z). { intros k Hk. replace (- h) with (-1 * h) in Hk by ring. apply Rmult_lt_reg_r in Hk; [|exact Hh]. apply lt_IZR in Hk. lia. }
  split; intros S0; split; [apply G0|apply L|apply G|apply L0]; lra.
Qed.
Lemma count_moved n : Z.of_nat (length (List.filter moved (seq 0 n))) = Z.abs (K n - K 0).
Proof.
  assert (P : (0 <= D -> (0 <= K n - K 0)%Z) /\ (D < 0 -> (K n - K 0 <= 0)%Z) /\ Z.of_nat (length (List.filter moved (seq 0 n))) = Z.abs (K n - K 0)).
  { induction n as [|n (P1 & P2 & E)]; [split; [|split]; intros; cbn; lia|]. rewrite seq_S, filter_app, app_length, Nat2Z.inj_add, E. cbn [plus List.filter].
    destruct (step_K n) as [S1 S2]. unfold moved at 1. destruct (Rle_lt_dec 0 D) as [H|H].
    - specialize (S1 H). specialize (P1 H). split; [lia|]. split; [lra|]. destruct (Z.eqb_spec (K (S n)) (K n)) as [C|C]; cbn [negb length]; lia.
    - specialize (S2 H). specialize (P2 H). split; [lra|]. split; [lia|]. destruct (Z.eqb_spec (K (S n)) (K n)) as [C|C]; cbn [negb length]; lia. }
  apply P.
Qed.
Lemma few_moved n : IZR (Z.of_nat (length (List.filter moved (seq 0 n)))) < INR n * Rabs D / h + 1.
Proof.
  rewrite count_moved, abs_IZR, minus_IZR. pose proof (pos_range n) as A. pose proof (pos_range 0) as B. unfold pos in A, B. cbn [INR] in B. rewrite Rmult_0_l, Rplus_0_r in B.
  set (a := IZR (K n)) in *. set (b := IZR (K 0)) in *. apply Rmult_lt_reg_r with h; [exact Hh|].
  replace ((INR n * Rabs D / h + 1) * h) with (INR n * Rabs D + h) by (field; lra). rewrite <- (Rabs_pos_eq h) at 1 by lra. rewrite <- Rabs_mult.
  assert (N0 := pos_INR n). assert (E : Rabs (INR n * D) = INR n * Rabs D) by (rewrite Rabs_mult, (Rabs_pos_eq (INR n)) by exact N0; reflexivity). rewrite <- E.
  apply Rabs_def1; [pose proof (Rle_abs (INR n * D))|pose proof (Rle_abs (- (INR n * D))) as Q; rewrite Rabs_Ropp in Q]; lra.
Qed.
Lemma npdiff_pos n : forall m, npdiff (map pos (seq m (S n))) = map (fun i => pos (S i) - pos i) (seq m n).
Proof.
  induction n as [|n IH]; intros m; [reflexivity|]. cbn [seq map npdiff]. f_equal. specialize (IH (S m)). cbn [seq map] in IH. exact IH.
Qed.
Lemma diff_value i : (moved i = false /\ pos (S i) - pos i = D) \/ (moved i = true /\ Rabs (pos (S i) - pos i - D) = h).
Proof.
  rewrite step_pos. unfold moved. destruct (Z.eqb_spec (K (S i)) (K i)) as [C|C]; cbn [negb].
  - left. split; [reflexivity|]. rewrite C, Z.sub_diag. ring.
  - right. split; [reflexivity|]. replace (D - IZR (K (S i) - K i) * h - D) with (- (IZR (K (S i) - K i) * h)) by ring.
    rewrite Rabs_Ropp, Rabs_mult, (Rabs_pos_eq h) by lra. rewrite <- abs_IZR. destruct (step_K i) as [S1 S2].
    assert (Z.abs (K (S i) - K i) = 1)%Z as -> by (destruct (Rle_lt_dec 0 D) as [H|H]; [specialize (S1 H)|specialize (S2 H)]; lia). ring.
Qed.
Lemma filter_map {A B} (f : A -> B) (q : B -> bool) l : List.filter q (map f l) = map f (List.filter (fun x => q (f x)) l).
Proof. induction l as [|x l IH]; cbn [map List.filter]; [reflexivity|]. rewrite IH. destruct (q (f x)); reflexivity. Qed.
Lemma mean_const l v : l <> [] -> (forall x, In x l -> x = v) -> meanR l = v.
Proof.
  intros Ne H. assert (B : v <= meanR l <= v); [|lra]. apply meanR_between; [exact Ne|]. intros x Hx. rewrite (H x Hx). lra.
Qed.
Variable n : nat.
Hypothesis Hn : 2 * (INR n * Rabs D / h + 1) <= INR n.
Let diff := npdiff (map pos (seq 0 (S n))).
Lemma diff_median : medianR diff = D.
Proof.
  apply median_majority. unfold diff. rewrite npdiff_pos, filter_map, !map_length, seq_length.
  assert (E : List.filter (fun i => other D (pos (S i) - pos i)) (seq 0 n) = List.filter moved (seq 0 n)).
  { apply filter_ext. intros i. unfold other. destruct (diff_value i) as [[-> E]|[-> E]]; destruct (Req_EM_T (pos (S i) - pos i) D) as [C|C]; try reflexivity; try contradiction.
    exfalso. rewrite C, Rminus_diag_eq, Rabs_R0 in E by reflexivity. lra. }
  rewrite E. pose proof (few_moved n) as F. apply Nat2Z.inj_lt. rewrite Nat2Z.inj_mul. apply lt_IZR. rewrite mult_IZR, <- (INR_IZR_INZ n). change (IZR (Z.of_nat 2)) with 2. lra.
Qed.
Lemma drift_value : (drift diff = None /\ forall i, (i < n)%nat -> moved i = false) \/ (drift diff = Some D /\ exists i, (i < n)%nat /\ moved i = true).
Proof.
  unfold drift. rewrite diff_median. set (dev := map (fun x => Rabs (x - D)) diff).
  assert (Dn : (0 < n)%nat). { destruct n; [exfalso; cbn [INR] in Hn; unfold Rdiv in Hn; rewrite !Rmult_0_l in Hn; lra|lia]. }
  assert (Ed : diff = map (fun i => pos (S i) - pos i) (seq 0 n)) by apply npdiff_pos.
  assert (Ne : dev <> []). { unfold dev. rewrite Ed. destruct n; [lia|]. discriminate. }
  assert (Hv : forall x, In x dev -> x = 0 \/ x = h).
  { unfold dev. rewrite Ed, map_map. intros x Hx. apply in_map_iff in Hx as (i & <- & Hi). destruct (diff_value i) as [[_ ->]|[_ ->]]; [left|right; reflexivity]. rewrite Rminus_diag_eq, Rabs_R0 by reflexivity. reflexivity. }
  unfold line_max. destruct (lmax dev) as [top|] eqn:Et; [|destruct dev; [congruence|discriminate]].
  assert (Mx : is_max top dev). { destruct dev as [|d0 dd]; [congruence|]. cbn [lmax] in Et. assert (top = maxR d0 dd) as -> by congruence. apply maxR_is_max. }
  destruct Mx as [Mi Mu]. destruct (Req_EM_T top 0) as [T0|T0].
  - left. split; [reflexivity|]. intros i Hi. destruct (diff_value i) as [[M _]|[_ E]]; [exact M|]. exfalso.
    assert (In h dev). { unfold dev. rewrite Ed, map_map. apply in_map_iff. exists i. split; [exact E|]. apply in_seq. lia. }
    specialize (Mu h H). lra.
  - right. assert (top = h) as -> by (destruct (Hv top Mi); [contradiction|assumption]).
    assert (Hi : exists i, (i < n)%nat /\ moved i = true).
    { unfold dev in Mi. rewrite Ed, map_map in Mi. apply in_map_iff in Mi as (i & E & Hi). apply in_seq in Hi. exists i. split; [lia|]. destruct (diff_value i) as [[_ Q]|[M _]]; [|exact M].
      exfalso. rewrite Q, Rminus_diag_eq, Rabs_R0 in E by reflexivity. lra. }
    split; [|exact Hi]. set (kept := List.filter _ diff).
    assert (Ks : forall x, In x kept -> x = D).
    { intros x Hx. apply filter_In in Hx as [Hx Ht]. rewrite Ed in Hx. apply in_map_iff in Hx as (i & <- & Hi'). destruct (diff_value i) as [[_ Q]|[_ Q]]; [exact Q|]. exfalso.
      rewrite Q in Ht. apply Rltb_spec in Ht. unfold Rdiv in Ht. rewrite Rinv_r in Ht by lra. lra. }
    assert (Kn : kept <> []).
    { destruct (existsb (fun i => negb (moved i)) (seq 0 n)) eqn:Ex.
      - apply existsb_exists in Ex as (i & Hi1 & Hi2). intros C. assert (In D kept); [|rewrite C in H; exact H]. apply filter_In. split.
        + rewrite Ed. apply in_map_iff. exists i. split; [|exact Hi1]. destruct (diff_value i) as [[_ Q]|[M _]]; [exact Q|]. rewrite M in Hi2. discriminate.
        + apply Rltb_spec. rewrite Rminus_diag_eq, Rabs_R0 by reflexivity. unfold Rdiv. lra.
      - exfalso. assert (F : List.filter moved (seq 0 n) = seq 0 n).
        { clear -Ex. induction (seq 0 n) as [|y l IH]; [reflexivity|]. cbn [existsb List.filter] in *. apply orb_false_iff in Ex as [E1 E2]. apply negb_false_iff in E1. rewrite E1, IH by exact E2. reflexivity. }
        pose proof (few_moved n) as Fw. rewrite F, seq_length, <- INR_IZR_INZ in Fw. assert (0 < INR n) by (apply lt_0_INR; lia). lra. }
    destruct kept as [|k0 kk] eqn:Ek; [congruence|]. f_equal. apply mean_const; [discriminate|exact Ks].
Qed.
Lemma moved_far : h <= INR n * Rabs D -> exists i, (i < n)%nat /\ moved i = true.
Proof.
  intros F. destruct (existsb moved (seq 0 n)) eqn:Ex.
  - apply existsb_exists in Ex as (i & Hi & M). apply in_seq in Hi. exists i. split; [lia|exact M].
  - exfalso. assert (E0 : List.filter moved (seq 0 n) = []).
    { clear -Ex. induction (seq 0 n) as [|y l IH]; [reflexivity|]. cbn [existsb List.filter] in *. apply orb_false_iff in Ex as [E1 E2]. rewrite E1. apply IH, E2. }
    pose proof (count_moved n) as C. rewrite E0 in C. cbn in C. assert (Kn : K n = K 0) by lia.
    pose proof (pos_range n) as A. pose proof (pos_range 0) as B. unfold pos in A, B. rewrite Kn in A. cbn [INR] in B. rewrite Rmult_0_l, Rplus_0_r in B.
    assert (N0 := pos_INR n). assert (E : Rabs (INR n * D) = INR n * Rabs D) by (rewrite Rabs_mult, (Rabs_pos_eq (INR n)) by exact N0; reflexivity). rewrite <- E in F.
    assert (Rabs (INR n * D) < h) by (apply Rabs_def1; lra). lra.
Qed.
End Drift.
