From Coq Require Import Reals List ZArith Lra Lia Permutation.
From Verif Require Import Base RList ModelMath.
Import ListNotations.
Local Open Scope R_scope.

(** ** argmin / argclosest *)
Definition first_argmin (i : nat) (l : list R) : Prop :=
  (i < length l)%nat /\ (forall j, (j < length l)%nat -> nth i l 0 <= nth j l 0) /\
  (forall j, (j < i)%nat -> nth i l 0 < nth j l 0).

Lemma amin_go_spec l : forall pre best bv,
  (best < length pre)%nat -> nth best pre 0 = bv ->
  (forall j, (j < length pre)%nat -> bv <= nth j pre 0) ->
  (forall j, (j < best)%nat -> bv < nth j pre 0) ->
  first_argmin (amin_go l (length pre) best bv) (pre ++ l).
Proof.
  induction l as [|y l IH]; intros pre best bv Hb Hn Hmin Hfst; cbn [amin_go].
  - rewrite app_nil_r. split; [exact Hb|]. rewrite Hn. auto.
  - replace (pre ++ y :: l) with ((pre ++ [y]) ++ l) by (rewrite <- app_assoc; reflexivity).
    replace (S (length pre)) with (length (pre ++ [y])) by (rewrite app_length; cbn; lia).
    assert (Hy : nth (length pre) (pre ++ [y]) 0 = y)
      by (rewrite app_nth2 by lia; replace (length pre - length pre)%nat with 0%nat by lia; reflexivity).
    assert (Hpre : forall j, (j < length pre)%nat -> nth j (pre ++ [y]) 0 = nth j pre 0) by (intros; apply app_nth1; auto).
    destruct (Rlt_dec y bv) as [L|L].
    + replace (length pre) with (length (pre ++ [y]) - 1)%nat at 2 by (rewrite app_length; cbn; lia).
      replace (length (pre ++ [y]) - 1)%nat with (length pre) by (rewrite app_length; cbn; lia).
      apply IH; auto.
      * rewrite app_length; cbn; lia.
      * intros j Hj. rewrite app_length in Hj; cbn in Hj.
        destruct (Nat.eq_dec j (length pre)) as [->|Nj]; [rewrite Hy; lra|].
        rewrite Hpre by lia. specialize (Hmin j). assert (bv <= nth j pre 0) by (apply Hmin; lia). lra.
      * intros j Hj. rewrite Hpre by lia. specialize (Hmin j Hj). lra.
    + apply IH.
      * rewrite app_length; cbn; lia.
      * rewrite Hpre; auto.
      * intros j Hj. rewrite app_length in Hj; cbn in Hj.
        destruct (Nat.eq_dec j (length pre)) as [->|Nj]; [rewrite Hy; lra|].
        rewrite Hpre by lia. apply Hmin. lia.
      * intros j Hj. rewrite Hpre by lia. auto.
Qed.

Lemma argmin_spec l i : argmin l = Ok i -> first_argmin i l.
Proof.
  destruct l as [|x l]; cbn [argmin]; intros E; [discriminate|]. injection E as <-.
  apply (amin_go_spec l [x] 0 x); cbn; try lia; auto; intros j Hj; destruct j; lra || lia.
Qed.
Lemma argmin_ok l : l <> [] -> exists i, argmin l = Ok i.
Proof. destruct l; [congruence|]. cbn. eauto. Qed.
Lemma first_argmin_unique l i j : first_argmin i l -> first_argmin j l -> i = j.
Proof.
  intros (Hi & Hi1 & Hi2) (Hj & Hj1 & Hj2). destruct (lt_eq_lt_dec i j) as [[L|E]|L]; auto.
  - specialize (Hj2 i L). specialize (Hi1 j Hj). lra.
  - specialize (Hi2 j L). specialize (Hj1 i Hi). lra.
Qed.
Lemma argmin_complete l i : first_argmin i l -> argmin l = Ok i.
Proof.
  intros H. destruct l as [|x l]; [destruct H as [H _]; cbn in H; lia|].
  destruct (argmin_ok (x :: l)) as [j E]; [discriminate|]. rewrite E. f_equal.
  eapply first_argmin_unique; eauto using argmin_spec.
Qed.

Lemma nth_map_dist x xs j : (j < length xs)%nat -> nth j (map (fun y => Rabs (y - x)) xs) 0 = Rabs (nth j xs 0 - x).
Proof.
  intros H. rewrite nth_indep with (d' := Rabs (0 - x)) by now rewrite map_length.
  apply (map_nth (fun y => Rabs (y - x))).
Qed.

Lemma argclosest_spec x xs i : argclosest x xs = Ok i ->
  (i < length xs)%nat /\ (forall j, (j < length xs)%nat -> Rabs (nth i xs 0 - x) <= Rabs (nth j xs 0 - x)) /\
  (forall j, (j < i)%nat -> Rabs (nth i xs 0 - x) < Rabs (nth j xs 0 - x)).
Proof.
  intros E. apply argmin_spec in E as (H1 & H2 & H3). rewrite map_length in *.
  repeat split; auto.
  - intros j Hj. specialize (H2 j Hj). now rewrite !nth_map_dist in H2 by auto.
  - intros j Hj. specialize (H3 j Hj). rewrite !nth_map_dist in H3 by lia. auto.
Qed.
Lemma argclosest_ok x xs : xs <> [] -> exists i, argclosest x xs = Ok i.
Proof. intros H. apply argmin_ok. destruct xs; [congruence|discriminate]. Qed.
Lemma argclosest_complete x xs i : (i < length xs)%nat ->
  (forall j, (j < length xs)%nat -> Rabs (nth i xs 0 - x) <= Rabs (nth j xs 0 - x)) ->
  (forall j, (j < i)%nat -> Rabs (nth i xs 0 - x) < Rabs (nth j xs 0 - x)) -> argclosest x xs = Ok i.
Proof.
  intros H1 H2 H3. apply argmin_complete. split; [now rewrite map_length|]. rewrite map_length. split.
  - intros j Hj. rewrite !nth_map_dist by auto. auto.
  - intros j Hj. rewrite !nth_map_dist by lia. auto.
Qed.

Lemma closest_spec x xs v : closest x xs = Ok v -> In v xs /\ forall y, In y xs -> Rabs (v - x) <= Rabs (y - x).
Proof.
  unfold closest, rmap. destruct (argclosest x xs) as [i|e] eqn:E; [|discriminate]. intros X; injection X as <-.
  apply argclosest_spec in E as (H1 & H2 & _). split; [apply nth_In, H1|].
  intros y Hy. apply (In_nth _ _ 0) in Hy as (j & Hj & <-). auto.
Qed.
Lemma closest_member x xs : In x xs -> closest x xs = Ok x.
Proof.
  intros Hin. assert (Hne : xs <> []) by (destruct xs; [destruct Hin|discriminate]).
  destruct (argclosest_ok x xs Hne) as [i E]. unfold closest. rewrite E. cbn. f_equal.
  destruct (argclosest_spec _ _ _ E) as (H1 & H2 & _).
  apply (In_nth _ _ 0) in Hin as (j & Hj & Ej). specialize (H2 j Hj). rewrite Ej in H2.
  replace (x - x) with 0 in H2 by lra. rewrite Rabs_R0 in H2.
  assert (0 <= Rabs (nth i xs 0 - x)) by apply Rabs_pos.
  assert (Z : Rabs (nth i xs 0 - x) = 0) by lra.
  destruct (Req_dec (nth i xs 0 - x) 0) as [D|D]; [lra|]. apply Rabs_no_R0 in D. contradiction.
Qed.

(** Monotonicity in the target on ascending data. *)
Lemma argclosest_mono xs x x' i i' :
  (forall a b, (a < b < length xs)%nat -> nth a xs 0 < nth b xs 0) ->
  x <= x' -> argclosest x xs = Ok i -> argclosest x' xs = Ok i' -> (i <= i')%nat.
Proof.
  intros Hinc Hx E E'. destruct (le_lt_dec i i') as [L|L]; auto. exfalso.
  apply argclosest_spec in E as (H1 & H2 & H3). apply argclosest_spec in E' as (H1' & H2' & H3').
  assert (A := H3 i' L). assert (B := H2' i H1).
  assert (C := Hinc i' i (conj L H1)).
  unfold Rabs in *. repeat destruct Rcase_abs; lra.
Qed.

(** ** interp *)
Inductive ascending : list (R * R) -> Prop :=
| asc_nil : ascending []
| asc_one p : ascending [p]
| asc_cons p q l : fst p < fst q -> ascending (q :: l) -> ascending (p :: q :: l).
Inductive nondecreasing : list (R * R) -> Prop :=
| nd_nil : nondecreasing []
| nd_one p : nondecreasing [p]
| nd_cons p q l : fst p <= fst q -> nondecreasing (q :: l) -> nondecreasing (p :: q :: l).
(** values going up (resp. down) along the nodes *)
Inductive rising : list (R * R) -> Prop :=
| ri_nil : rising []
| ri_one p : rising [p]
| ri_cons p q l : snd p <= snd q -> rising (q :: l) -> rising (p :: q :: l).

Lemma asc_head p l q : ascending (p :: l) -> In q l -> fst p < fst q.
Proof.
  revert p. induction l as [|r l IH]; intros p H Hin; [destruct Hin|].
  inversion H; subst. destruct Hin as [->|Hin]; auto. apply (IH r) in Hin; auto. lra.
Qed.
Lemma asc_tail p l : ascending (p :: l) -> ascending l.
Proof. inversion 1; subst; auto. constructor. Qed.

Lemma interp_cons2 x0 y0 x1 y1 l x : interp ((x0, y0) :: (x1, y1) :: l) x =
  if Rlt_dec x x1 then (if Rle_dec x x0 then y0 else (y1 - y0) / (x1 - x0) * (x - x0) + y0)
  else interp ((x1, y1) :: l) x.
Proof. reflexivity. Qed.

Lemma interp_node l p : ascending l -> In p l -> interp l (fst p) = snd p.
Proof.
  induction l as [|[x0 y0] l IH]; intros H Hin; [destruct Hin|].
  destruct l as [|[x1 y1] l].
  - destruct Hin as [<-|[]]. reflexivity.
  - rewrite !interp_cons2. destruct Hin as [<-|Hin].
    + assert (x0 < x1) by (apply (asc_head _ _ (x1, y1) H); left; auto). cbn [fst snd].
      destruct (Rlt_dec x0 x1); [|contradiction]. destruct (Rle_dec x0 x0); [reflexivity|lra].
    + assert (x1 <= fst p).
      { destruct Hin as [<-|Hin]; [cbn; lra|]. left. apply (asc_head (x1, y1) l p (asc_tail _ _ H) Hin). }
      destruct (Rlt_dec (fst p) x1); [lra|]. apply IH; auto. eapply asc_tail; eauto.
Qed.

Lemma interp_left x0 y0 l x : nondecreasing ((x0, y0) :: l) -> x <= x0 -> x < match l with [] => x + 1 | q :: _ => fst q end ->
  interp ((x0, y0) :: l) x = y0.
Proof.
  intros H Hx Hq. destruct l as [|[x1 y1] l]; rewrite ?interp_cons2; [reflexivity|]. cbn in Hq.
  destruct (Rlt_dec x x1); [|lra]. destruct (Rle_dec x x0); [reflexivity|lra].
Qed.

Lemma interp_right l d x : l <> [] -> nondecreasing l -> fst (last l d) <= x -> interp l x = snd (last l d).
Proof.
  induction l as [|[x0 y0] l IH]; intros Hne H Hx; [congruence|].
  destruct l as [|[x1 y1] l]; [reflexivity|].
  inversion H; subst. rewrite !interp_cons2.
  assert (Hle : forall l (q : R * R), nondecreasing (q :: l) -> fst q <= fst (last (q :: l) d)).
  { clear. induction l as [|r l IH]; intros q Hq; [cbn; lra|]. inversion Hq; subst.
    specialize (IH r H3). cbn [last] in *. lra. }
  assert (x1 <= fst (last ((x1, y1) :: l) d)) by (apply (Hle l (x1, y1)); auto).
  change (last ((x0, y0) :: (x1, y1) :: l) d) with (last ((x1, y1) :: l) d) in *.
  destruct (Rlt_dec x x1); [lra|]. apply IH; auto. discriminate.
Qed.

(** Between two neighbouring nodes the value lies on the segment. *)
Lemma segment_between x0 y0 x1 y1 x : x0 < x1 -> x0 <= x <= x1 ->
  Rmin y0 y1 <= (y1 - y0) / (x1 - x0) * (x - x0) + y0 <= Rmax y0 y1.
Proof.
  intros H Hx. set (t := (x - x0) / (x1 - x0)).
  assert (Ht : 0 <= t <= 1).
  { unfold t. split.
    - apply Rmult_le_pos; [lra|]. left. apply Rinv_0_lt_compat. lra.
    - apply Rmult_le_reg_r with (x1 - x0); [lra|]. unfold Rdiv. rewrite Rmult_assoc, Rinv_l; lra. }
  replace ((y1 - y0) / (x1 - x0) * (x - x0) + y0) with (y0 + t * (y1 - y0)) by (unfold t; field; lra).
  unfold Rmin, Rmax. destruct (Rle_dec y0 y1); nra.
Qed.

Lemma interp_between l x lo hi : l <> [] -> nondecreasing l ->
  (forall p, In p l -> lo <= snd p <= hi) -> lo <= interp l x <= hi.
Proof.
  induction l as [|[x0 y0] l IH]; intros Hne Hnd H; [congruence|].
  destruct l as [|[x1 y1] l].
  - cbn. apply (H (x0, y0)); left; auto.
  - rewrite !interp_cons2. inversion Hnd; subst. cbn in H2.
    assert (H0 := H (x0, y0) (or_introl eq_refl)). assert (H1 := H (x1, y1) (or_intror (or_introl eq_refl))). cbn in *.
    destruct (Rlt_dec x x1).
    + destruct (Rle_dec x x0); [lra|].
      destruct (segment_between x0 y0 x1 y1 x) as [A B]; [lra|lra|].
      unfold Rmin, Rmax in *. destruct (Rle_dec y0 y1); lra.
    + apply IH; auto. discriminate.
Qed.

Lemma interp_segment pre x0 y0 x1 y1 post x : ascending (pre ++ (x0, y0) :: (x1, y1) :: post) ->
  x0 <= x <= x1 ->
  interp (pre ++ (x0, y0) :: (x1, y1) :: post) x = y0 + (y1 - y0) * ((x - x0) / (x1 - x0)).
Proof.
  induction pre as [|[a b] pre IH]; intros H Hx; cbn [app].
  - assert (x0 < x1) by (apply (asc_head _ _ (x1, y1) H); left; auto).
    rewrite !interp_cons2. destruct (Rlt_dec x x1).
    + destruct (Rle_dec x x0); [replace x with x0 by lra; field; lra|field; lra].
    + replace x with x1 by lra. assert (A := asc_tail _ _ H).
      rewrite (interp_node _ (x1, y1) A (or_introl eq_refl) : interp ((x1,y1)::post) x1 = y1). field; lra.
  - rewrite <- IH; [|eapply asc_tail; eauto|exact Hx].
    destruct (pre ++ (x0, y0) :: (x1, y1) :: post) as [|[c d] r] eqn:E; [destruct pre; discriminate|].
    rewrite !interp_cons2. destruct (Rlt_dec x c) as [L|L]; auto. exfalso.
    assert (c <= x0); [|lra].
    cbn [app] in H. rewrite E in H. apply asc_tail in H.
    destruct pre as [|p pre]; cbn in E; [injection E as <- <- <-; lra|].
    injection E as -> E. left. apply (asc_head _ _ (x0, y0) H). rewrite <- E. apply in_elt.
Qed.

Lemma interp_mono l x x' : rising l -> nondecreasing l -> x <= x' -> interp l x <= interp l x'.
Proof.
  induction l as [|[x0 y0] l IH]; intros Hr Hnd Hx; [cbn; lra|].
  destruct l as [|[x1 y1] l]; [cbn; lra|].
  assert (Hy : y0 <= y1) by (inversion Hr; auto). assert (Hr' : rising ((x1, y1) :: l)) by (inversion Hr; auto).
  assert (Hxx : x0 <= x1) by (inversion Hnd; auto). assert (Hnd' : nondecreasing ((x1, y1) :: l)) by (inversion Hnd; auto).
  rewrite !interp_cons2.
  assert (Lo : forall z, y1 <= interp ((x1, y1) :: l) z).
  { intros z. assert (Hq : forall (l : list (R * R)) (q p : R * R), rising (q :: l) -> In p (q :: l) -> snd q <= snd p).
    { clear. induction l as [|r l IH]; intros q p Hq [->|Hin]; try lra; [destruct Hin|]. inversion Hq; subst.
      specialize (IH r p H3 Hin). lra. }
    set (M := fold_right Rmax y1 (map snd ((x1, y1) :: l))).
    destruct (interp_between ((x1, y1) :: l) z y1 M) as [A _]; auto; [discriminate|].
    intros p Hp. split; [apply (Hq _ _ _ Hr' Hp)|]. unfold M.
    assert (HM : forall (l : list (R * R)) b p, In p l -> snd p <= fold_right Rmax b (map snd l)).
    { clear. induction l as [|q l IH]; intros b p Hp; [destruct Hp|]. cbn [map fold_right]. destruct Hp as [->|Hp].
      - apply Rmax_l.
      - eapply Rle_trans; [|apply Rmax_r]. auto. }
    apply HM; auto. }
  assert (Seg : forall z, x0 < z -> z < x1 -> y0 <= (y1 - y0) / (x1 - x0) * (z - x0) + y0 <= y1).
  { intros z Z1 Z2. destruct (segment_between x0 y0 x1 y1 z) as [A B]; [lra|lra|].
    unfold Rmin, Rmax in *. destruct (Rle_dec y0 y1); lra. }
  destruct (Rlt_dec x x1) as [L|L], (Rlt_dec x' x1) as [L'|L']; try lra.
  - destruct (Rle_dec x x0), (Rle_dec x' x0); try lra.
    + apply Seg; lra.
    + assert (0 <= (y1 - y0) / (x1 - x0)).
      { apply Rmult_le_pos; [lra|]. left. apply Rinv_0_lt_compat. lra. }
      assert ((y1 - y0) / (x1 - x0) * (x - x0) <= (y1 - y0) / (x1 - x0) * (x' - x0)) by (apply Rmult_le_compat_l; lra).
      lra.
  - assert (A := Lo x'). destruct (Rle_dec x x0); [lra|]. assert (B := Seg x ltac:(lra) L). lra.
  - apply IH; auto.
Qed.

(** ** sort_pts *)
Lemma insert_pt_perm p l : Permutation (p :: l) (insert_pt p l).
Proof.
  induction l as [|q l IH]; cbn; auto. destruct (Rle_dec (fst p) (fst q)); auto.
  rewrite perm_swap. constructor. exact IH.
Qed.
Lemma sort_pts_perm l : Permutation l (sort_pts l).
Proof. induction l as [|p l IH]; cbn; auto. rewrite IH at 1. apply insert_pt_perm. Qed.
Lemma nd_cons' p l : nondecreasing l -> (forall q, In q l -> fst p <= fst q) -> nondecreasing (p :: l).
Proof. intros H Hp. destruct l as [|q l]; constructor; auto. apply Hp; left; auto. Qed.
Lemma nd_head p l q : nondecreasing (p :: l) -> In q l -> fst p <= fst q.
Proof.
  revert p. induction l as [|r l IH]; intros p H Hin; [destruct Hin|].
  inversion H; subst. destruct Hin as [->|Hin]; auto. apply (IH r) in Hin; auto. lra.
Qed.
Lemma insert_pt_nd p l : nondecreasing l -> nondecreasing (insert_pt p l).
Proof.
  induction l as [|q l IH]; intros H; cbn; [constructor|].
  destruct (Rle_dec (fst p) (fst q)) as [L|L].
  - constructor; auto.
  - apply nd_cons'.
    + apply IH. inversion H; subst; auto. constructor.
    + intros r Hr. eapply Permutation_in in Hr; [|apply Permutation_sym, insert_pt_perm].
      destruct Hr as [<-|Hr]; [lra|]. eapply nd_head; eauto.
Qed.
Lemma sort_pts_nd l : nondecreasing (sort_pts l).
Proof. induction l as [|p l IH]; cbn; [constructor|apply insert_pt_nd, IH]. Qed.
Lemma nd_distinct_asc l : nondecreasing l -> NoDup (map fst l) -> ascending l.
Proof.
  induction 1 as [|p|p q l Hpq H IH]; intros Hd; try constructor.
  - inversion Hd; subst. destruct Hpq as [L|E]; auto. exfalso. apply H2. rewrite E. left; auto.
  - apply IH. inversion Hd; auto.
Qed.
Lemma ascending_unique l l' : ascending l -> ascending l' -> Permutation l l' -> l = l'.
Proof.
  revert l'. induction l as [|p l IH]; intros l' H H' P.
  - apply Permutation_nil in P. auto.
  - destruct l' as [|q l']; [apply Permutation_sym, Permutation_nil in P; discriminate|].
    assert (p = q).
    { assert (A : In p (q :: l')) by (eapply Permutation_in; [exact P|left; auto]).
      assert (B : In q (p :: l)) by (eapply Permutation_in; [apply Permutation_sym; exact P|left; auto]).
      destruct A as [->|A]; auto. destruct B as [->|B]; auto.
      apply (asc_head _ _ _ H') in A. apply (asc_head _ _ _ H) in B. lra. }
    subst q. f_equal. apply IH; eauto using asc_tail, Permutation_cons_inv.
Qed.
Lemma sort_pts_asc l : NoDup (map fst l) -> ascending (sort_pts l).
Proof.
  intros H. apply nd_distinct_asc; [apply sort_pts_nd|].
  eapply Permutation_NoDup; [|exact H]. apply Permutation_map, sort_pts_perm.
Qed.
Lemma sort_pts_order l l' : Permutation l l' -> NoDup (map fst l) -> sort_pts l = sort_pts l'.
Proof.
  intros P H. apply ascending_unique.
  - apply sort_pts_asc, H.
  - apply sort_pts_asc. eapply Permutation_NoDup; [|exact H]. apply Permutation_map, P.
  - rewrite <- !sort_pts_perm. exact P.
Qed.
Lemma sort_pts_id l : ascending l -> sort_pts l = l.
Proof.
  intros H. apply ascending_unique; auto; [|apply Permutation_sym, sort_pts_perm].
  apply sort_pts_asc. clear -H. induction H as [|p|p q l Hpq H IH]; cbn.
  - constructor.
  - constructor; [intros []|constructor].
  - constructor; auto. intros Hin. change (In (fst p) (map fst (q :: l))) in Hin. apply in_map_iff in Hin as (r & Er & Hr).
    assert (A : ascending (p :: q :: l)) by (constructor; auto). apply (asc_head _ _ r) in A; auto. lra.
Qed.

(** ** Sinusoid *)
Lemma sin_shift_PI x : sin (x + PI) = - sin x. Proof. apply neg_sin. Qed.
Lemma from_popt_same a p x0 y0 x : p <> 0 -> sin_at (from_popt a p x0 y0) x = sinusoid a p x0 y0 x.
Proof.
  intros Hp. unfold from_popt, sin_at. destruct (Rlt_dec a 0) as [L|L]; cbn; auto.
  unfold sinusoid. rewrite Rabs_left by exact L.
  replace ((x - (x0 - p / 2)) / p * 2 * PI) with ((x - x0) / p * 2 * PI + PI) by (field; exact Hp).
  rewrite neg_sin. lra.
Qed.
Lemma from_popt_amp a p x0 y0 : 0 <= s_a (from_popt a p x0 y0).
Proof. unfold from_popt. destruct (Rlt_dec a 0); cbn; [apply Rabs_pos|lra]. Qed.

Lemma floordiv_spec x y : 0 < y -> 0 <= x - floordiv x y * y < y.
Proof.
  intros Hy. unfold floordiv. destruct (base_Int_part (x / y)) as [A B].
  assert (E : x = x / y * y) by (field; lra).
  split.
  - assert (IZR (Int_part (x / y)) * y <= x / y * y) by (apply Rmult_le_compat_r; lra). lra.
  - assert (x / y * y < (IZR (Int_part (x / y)) + 1) * y) by (apply Rmult_lt_compat_r; lra). lra.
Qed.

Lemma sin_Z_PI (x : R) (k : Z) : sin (x + IZR k * (2 * PI)) = sin x.
Proof.
  destruct (Z_le_dec 0 k) as [H|H].
  - rewrite <- (sin_period x (Z.to_nat k)). f_equal. rewrite INR_IZR_INZ, Z2Nat.id by lia. lra.
  - rewrite <- (sin_period (x + IZR k * (2 * PI)) (Z.to_nat (- k))). f_equal.
    rewrite INR_IZR_INZ, Z2Nat.id, opp_IZR by lia. lra.
Qed.
Lemma cos_Z_PI0 (k : Z) : cos (PI / 2 + IZR k * PI) = 0.
Proof. apply cos_eq_0_1. exists k. lra. Qed.

(** Extrema of a sinusoid are where the cosine of the phase vanishes. *)
Definition phase (s : sinus) (x : R) : R := (x - s_x0 s) / s_p s * 2 * PI.
Definition is_extremum (s : sinus) (x : R) : Prop := Rabs (sin (phase s x)) = 1.
Definition is_peak (s : sinus) (x : R) : Prop := sin (phase s x) = 1.

Lemma first_extremum_ok s : 0 < s_p s -> 0 <= first_extremum s < s_p s / 2 /\ is_extremum s (first_extremum s).
Proof.
  intros Hp. unfold first_extremum. set (x0e := s_x0 s + s_p s / 4).
  destruct (floordiv_spec x0e (s_p s / 2)) as [A B]; [lra|]. split; [lra|].
  unfold is_extremum, phase, floordiv.
  set (k := Int_part (x0e / (s_p s / 2))).
  replace ((x0e - IZR k * s_p s / 2 - s_x0 s) / s_p s * 2 * PI) with (PI / 2 + IZR (- k) * PI)
    by (unfold x0e; rewrite opp_IZR; field; lra).
  assert (C := cos_Z_PI0 (- k)). assert (S := sin2_cos2 (PI / 2 + IZR (- k) * PI)). rewrite C in S.
  unfold Rsqr in S. set (y := sin (PI / 2 + IZR (- k) * PI)) in *.
  assert (y * y = 1) by lra. unfold Rabs. destruct (Rcase_abs y); nra.
Qed.
Lemma extremum_positions s x : 0 < s_p s -> is_extremum s x ->
  exists k : Z, x = s_x0 s + s_p s / 4 + IZR k * (s_p s / 2).
Proof.
  intros Hp He. unfold is_extremum in He.
  assert (C : cos (phase s x) = 0).
  { assert (S := sin2_cos2 (phase s x)). unfold Rsqr in S.
    assert (sin (phase s x) * sin (phase s x) = 1).
    { unfold Rabs in He. destruct (Rcase_abs (sin (phase s x))); nra. }
    assert (cos (phase s x) * cos (phase s x) = 0) by lra. nra. }
  apply cos_eq_0_0 in C as [k Hk]. exists k. unfold phase in Hk.
  assert (PI > 0) by apply PI_RGT_0.
  assert (E : x - s_x0 s = s_p s * ((x - s_x0 s) / s_p s * 2 * PI) / (2 * PI)) by (field; split; lra).
  rewrite Hk in E. replace x with (s_x0 s + (x - s_x0 s)) by lra. rewrite E. field. lra.
Qed.
Lemma first_extremum_least s x : 0 < s_p s -> 0 <= x -> is_extremum s x -> first_extremum s <= x.
Proof.
  intros Hp Hx He. destruct (extremum_positions s x Hp He) as [k ->].
  destruct (first_extremum_ok s Hp) as [[A B] _]. unfold first_extremum, floordiv in *.
  set (x0e := s_x0 s + s_p s / 4) in *. set (m := Int_part (x0e / (s_p s / 2))) in *.
  destruct (Z_le_dec (- m) k) as [L|L].
  - apply IZR_le in L. rewrite opp_IZR in L. assert (IZR (k) * (s_p s / 2) >= - IZR m * (s_p s / 2)) by nra. lra.
  - exfalso. assert (k + 1 <= - m)%Z by lia. apply IZR_le in H. rewrite plus_IZR, opp_IZR in H.
    assert (IZR k * (s_p s / 2) <= (- IZR m - 1) * (s_p s / 2)) by nra. lra.
Qed.
Lemma first_peak_ok s : 0 < s_p s -> 0 <= first_peak s < s_p s /\ is_peak s (first_peak s).
Proof.
  intros Hp. unfold first_peak. set (x0e := s_x0 s + s_p s / 4).
  destruct (floordiv_spec x0e (s_p s)) as [A B]; [lra|]. split; [lra|].
  unfold is_peak, phase, floordiv. set (k := Int_part (x0e / s_p s)).
  replace ((x0e - IZR k * s_p s - s_x0 s) / s_p s * 2 * PI) with (PI / 2 + IZR (- k) * (2 * PI))
    by (unfold x0e; rewrite opp_IZR; field; lra).
  rewrite sin_Z_PI. apply sin_PI2.
Qed.
Lemma peak_positions s x : 0 < s_p s -> is_peak s x -> exists k : Z, x = s_x0 s + s_p s / 4 + IZR k * s_p s.
Proof.
  intros Hp Hpk. destruct (extremum_positions s x Hp) as [k ->].
  { unfold is_extremum. rewrite Hpk. apply Rabs_R1. }
  assert (Hpar : exists m, (k = 2 * m \/ k = 2 * m + 1)%Z).
  { exists (k / 2)%Z. assert (A := Z.div_mod k 2). assert (B := Z.mod_pos_bound k 2). lia. }
  destruct Hpar as [m [->| ->]].
  - exists m. rewrite mult_IZR. lra.
  - exfalso. unfold is_peak, phase in Hpk.
    replace ((s_x0 s + s_p s / 4 + IZR (2 * m + 1) * (s_p s / 2) - s_x0 s) / s_p s * 2 * PI)
      with (PI / 2 + PI + IZR m * (2 * PI)) in Hpk by (rewrite plus_IZR, mult_IZR; field; lra).
    rewrite sin_Z_PI, neg_sin, sin_PI2 in Hpk. lra.
Qed.
Lemma first_peak_least s x : 0 < s_p s -> 0 <= x -> is_peak s x -> first_peak s <= x.
Proof.
  intros Hp Hx He. destruct (peak_positions s x Hp He) as [k ->].
  destruct (first_peak_ok s Hp) as [[A B] _]. unfold first_peak, floordiv in *.
  set (x0e := s_x0 s + s_p s / 4) in *. set (m := Int_part (x0e / s_p s)) in *.
  destruct (Z_le_dec (- m) k) as [L|L].
  - apply IZR_le in L. rewrite opp_IZR in L. nra.
  - exfalso. assert (k + 1 <= - m)%Z by lia. apply IZR_le in H. rewrite plus_IZR, opp_IZR in H. nra.
Qed.

(** Values of the sinusoid at extrema/peaks. *)
Lemma sin_value_peak s x : 0 < s_a s -> (is_peak s x <-> sin_at s x = s_a s + s_y0 s).
Proof.
  intros Ha. unfold is_peak, sin_at, sinusoid. fold (phase s x). split; intros E; [rewrite E; lra|nra].
Qed.
Lemma sin_at_bound s x : 0 <= s_a s -> s_y0 s - s_a s <= sin_at s x <= s_y0 s + s_a s.
Proof.
  intros Ha. unfold sin_at, sinusoid. fold (phase s x).
  assert (B := SIN_bound (phase s x)). nra.
Qed.
Lemma sin_value_extremum s x : 0 < s_a s -> 0 < s_p s ->
  (is_extremum s x <-> (forall z, sin_at s z <= sin_at s x) \/ (forall z, sin_at s x <= sin_at s z)).
Proof.
  intros Ha Hp. split.
  - intros E. unfold is_extremum in E.
    assert (H : sin (phase s x) = 1 \/ sin (phase s x) = -1).
    { unfold Rabs in E. destruct (Rcase_abs (sin (phase s x))); lra. }
    assert (V : sin_at s x = s_a s * sin (phase s x) + s_y0 s) by reflexivity.
    destruct H as [H|H]; rewrite H in V; [left|right]; intros z; destruct (sin_at_bound s z) as [A B]; lra.
  - intros H. unfold is_extremum.
    assert (V : forall z, sin_at s z = s_a s * sin (phase s z) + s_y0 s) by reflexivity.
    assert (P1 : sin (phase s (s_x0 s + s_p s / 4)) = 1).
    { unfold phase. replace ((s_x0 s + s_p s / 4 - s_x0 s) / s_p s * 2 * PI) with (PI / 2) by (field; lra). apply sin_PI2. }
    assert (P2 : sin (phase s (s_x0 s - s_p s / 4)) = -1).
    { unfold phase. replace ((s_x0 s - s_p s / 4 - s_x0 s) / s_p s * 2 * PI) with (- (PI / 2)) by (field; lra).
      rewrite sin_neg, sin_PI2. reflexivity. }
    assert (B := SIN_bound (phase s x)).
    destruct H as [H|H].
    + specialize (H (s_x0 s + s_p s / 4)). rewrite !V, P1 in H.
      assert (sin (phase s x) = 1) by nra. rewrite H0. apply Rabs_R1.
    + specialize (H (s_x0 s - s_p s / 4)). rewrite !V, P2 in H.
      assert (sin (phase s x) = -1) by nra. rewrite H0. unfold Rabs. destruct (Rcase_abs (-1)); lra.
Qed.

(** ** Gaussian filter *)
(** Amplitude transmission of a Gaussian kernel with standard deviation sigma at wavelength lambda. *)
Definition transmission (sigma lambda : R) : R := exp (- (2 * PI * sigma / lambda) * (2 * PI * sigma / lambda) / 2).
Lemma ln2_pos : 0 < ln 2. Proof. rewrite <- ln_1. apply ln_increasing; lra. Qed.
Lemma transmission_general cutoff step lambda : 0 < cutoff -> 0 < step -> 0 < lambda ->
  transmission (gauss_sigma_px cutoff step) (lambda / step) = exp (- (ln 2 * ((cutoff / lambda) * (cutoff / lambda)))).
Proof.
  intros Hc Hs Hl. assert (P := PI_RGT_0). assert (L := ln2_pos).
  unfold transmission, gauss_sigma_px, gauss_sigma. f_equal.
  set (q := sqrt (ln 2 / 2)). assert (Q : q * q = ln 2 / 2) by (apply sqrt_sqrt; lra).
  replace (2 * PI * (cutoff / step / PI * q) / (lambda / step)) with (2 * (cutoff / lambda) * q)
    by (field; repeat split; lra).
  replace (- (2 * (cutoff / lambda) * q) * (2 * (cutoff / lambda) * q) / 2)
    with (- (2 * (cutoff / lambda) * (cutoff / lambda) * (q * q))) by lra.
  rewrite Q. lra.
Qed.
Lemma transmission_half cutoff step : 0 < cutoff -> 0 < step ->
  transmission (gauss_sigma_px cutoff step) (cutoff / step) = 1 / 2.
Proof.
  intros Hc Hs. rewrite transmission_general by auto.
  replace (ln 2 * (cutoff / cutoff * (cutoff / cutoff))) with (ln 2) by (field; lra).
  rewrite exp_Ropp, exp_ln by lra. lra.
Qed.
Lemma transmission_mono cutoff step l l' : 0 < cutoff -> 0 < step -> 0 < l -> l < l' ->
  transmission (gauss_sigma_px cutoff step) (l / step) < transmission (gauss_sigma_px cutoff step) (l' / step).
Proof.
  intros Hc Hs Hl Hl'. rewrite !transmission_general by lra. apply exp_increasing.
  assert (L := ln2_pos).
  assert (0 < cutoff / l') by (apply Rdiv_lt_0_compat; lra).
  assert (cutoff / l' < cutoff / l).
  { apply Rmult_lt_compat_l; auto. apply Rinv_lt_contravar; nra. }
  assert (cutoff / l' * (cutoff / l') < cutoff / l * (cutoff / l)) by nra. nra.
Qed.

(** ** More on interpolation *)
Definition negy (l : list (R * R)) := map (fun p => (fst p, - snd p)) l.
Lemma interp_negy l x : interp (negy l) x = - interp l x.
Proof.
  induction l as [|[x0 y0] l IH]; [cbn; lra|]. destruct l as [|[x1 y1] l]; [reflexivity|].
  change (negy ((x0, y0) :: (x1, y1) :: l)) with ((x0, - y0) :: (x1, - y1) :: negy l).
  rewrite !interp_cons2. destruct (Rlt_dec x x1).
  - destruct (Rle_dec x x0); [reflexivity|]. unfold Rdiv. lra.
  - exact IH.
Qed.
Lemma asc_nd l : ascending l -> nondecreasing l.
Proof. induction 1; constructor; auto. lra. Qed.
Lemma negy_nd l : nondecreasing l -> nondecreasing (negy l).
Proof. induction 1; constructor; auto. Qed.

Lemma asc_adjacent l p q : ascending l -> In p l -> In q l -> fst p < fst q ->
  (forall r, In r l -> ~ (fst p < fst r < fst q)) -> exists pre post, l = pre ++ p :: q :: post.
Proof.
  induction l as [|a l IH]; intros H Hp Hq Hpq Hno; [destruct Hp|].
  assert (Hpl : In p l -> exists pre post, a :: l = pre ++ p :: q :: post).
  { intros Hp'. destruct Hq as [->|Hq].
    - apply (asc_head _ _ _ H) in Hp'. lra.
    - destruct IH as (pre & post & ->); eauto using asc_tail.
      + intros r Hr. apply Hno. right; auto.
      + exists (a :: pre), post. reflexivity. }
  destruct Hp as [->|Hp]; [|auto].
  destruct Hq as [->|Hq]; [lra|].
  destruct l as [|b l]; [destruct Hq|]. destruct Hq as [->|Hq]; [exists [], l; reflexivity|].
  exfalso. apply (Hno b); [right; left; auto|]. split.
  - apply (asc_head _ _ _ H). left; auto.
  - apply (asc_head _ _ _ (asc_tail _ _ H)). exact Hq.
Qed.

Lemma combine_fst {A B} (xs : list A) (ys : list B) : length xs = length ys -> map fst (combine xs ys) = xs.
Proof. revert ys; induction xs as [|x xs IH]; intros [|y ys] H; cbn in *; try lia; auto. f_equal. apply IH. lia. Qed.
Lemma combine_nth_In (xs ys : list R) i : length xs = length ys -> (i < length xs)%nat ->
  In (nth i xs 0, nth i ys 0) (combine xs ys).
Proof. intros H Hi. rewrite <- combine_nth by exact H. apply nth_In. rewrite combine_length. lia. Qed.
Lemma combine_In_nth (xs ys : list R) p : length xs = length ys -> In p (combine xs ys) ->
  exists i, (i < length xs)%nat /\ p = (nth i xs 0, nth i ys 0).
Proof.
  intros H Hin. apply (In_nth _ _ (0, 0)) in Hin as (i & Hi & <-). rewrite combine_length in Hi.
  exists i. split; [lia|]. apply combine_nth, H.
Qed.

Section Interp1d.
Variables xs ys : list R.
Hypothesis Hlen : length xs = length ys.
Hypothesis Hdis : NoDup xs.
Let pts := sort_pts (combine xs ys).
Lemma pts_asc : ascending pts.
Proof. apply sort_pts_asc. rewrite combine_fst; auto. Qed.
Lemma pts_In p : In p pts <-> exists i, (i < length xs)%nat /\ p = (nth i xs 0, nth i ys 0).
Proof.
  split.
  - intros H. apply combine_In_nth; auto. eapply Permutation_in; [apply Permutation_sym, sort_pts_perm|exact H].
  - intros (i & Hi & ->). eapply Permutation_in; [apply sort_pts_perm|]. apply combine_nth_In; auto.
Qed.
Lemma interp1d_node i : (i < length xs)%nat -> interp1d xs ys (nth i xs 0) = nth i ys 0.
Proof.
  intros Hi. apply (interp_node pts (nth i xs 0, nth i ys 0) pts_asc). apply pts_In. eauto.
Qed.
Lemma interp1d_segment i j x : (i < length xs)%nat -> (j < length xs)%nat -> nth i xs 0 < nth j xs 0 ->
  (forall k, (k < length xs)%nat -> ~ (nth i xs 0 < nth k xs 0 < nth j xs 0)) ->
  nth i xs 0 <= x <= nth j xs 0 ->
  interp1d xs ys x = nth i ys 0 + (nth j ys 0 - nth i ys 0) * ((x - nth i xs 0) / (nth j xs 0 - nth i xs 0)).
Proof.
  intros Hi Hj Hij Hno Hx.
  destruct (asc_adjacent pts (nth i xs 0, nth i ys 0) (nth j xs 0, nth j ys 0)) as (pre & post & E); auto using pts_asc.
  - apply pts_In; eauto.
  - apply pts_In; eauto.
  - intros r Hr. apply pts_In in Hr as (k & Hk & ->). apply Hno, Hk.
  - unfold interp1d. fold pts. rewrite E. apply interp_segment; auto. rewrite <- E. apply pts_asc.
Qed.
Lemma interp1d_bounds lo hi x : xs <> [] -> (forall i, (i < length xs)%nat -> lo <= nth i ys 0 <= hi) -> lo <= interp1d xs ys x <= hi.
Proof.
  intros Hne H. apply interp_between.
  - destruct xs; [congruence|]. destruct ys; [discriminate Hlen|]. cbn. intros E.
    assert (P := insert_pt_perm (r, r0) (sort_pts (combine l l0))). rewrite E in P.
    apply Permutation_sym, Permutation_nil in P. discriminate.
  - apply sort_pts_nd.
  - intros p Hp. apply pts_In in Hp as (i & Hi & ->). apply H, Hi.
Qed.
Lemma rising_of l : (forall p q, In p l -> In q l -> fst p <= fst q -> snd p <= snd q) -> nondecreasing l -> rising l.
Proof.
  intros H. induction 1 as [|p|p q l Hpq Hl IH]; constructor.
  - apply H; cbn; auto.
  - apply IH. intros a b Ha Hb. apply H; right; auto.
Qed.
Lemma nodup_nth_eq i j : (i < length xs)%nat -> (j < length xs)%nat -> nth i xs 0 = nth j xs 0 -> i = j.
Proof. intros Hi Hj E. eapply NoDup_nth; eauto. Qed.
Lemma interp1d_mono x x' :
  (forall i j, (i < length xs)%nat -> (j < length xs)%nat -> nth i xs 0 < nth j xs 0 -> nth i ys 0 <= nth j ys 0) ->
  x <= x' -> interp1d xs ys x <= interp1d xs ys x'.
Proof.
  intros H Hx. apply interp_mono; auto using sort_pts_nd. apply rising_of; [|apply sort_pts_nd].
  intros p q Hp Hq L. apply pts_In in Hp as (i & Hi & ->). apply pts_In in Hq as (j & Hj & ->). cbn in *.
  destruct L as [L|L]; [apply H; auto|]. apply nodup_nth_eq in L; auto. subst. lra.
Qed.
Lemma interp1d_anti x x' :
  (forall i j, (i < length xs)%nat -> (j < length xs)%nat -> nth i xs 0 < nth j xs 0 -> nth j ys 0 <= nth i ys 0) ->
  x <= x' -> interp1d xs ys x' <= interp1d xs ys x.
Proof.
  intros H Hx. unfold interp1d. fold pts.
  assert (A : interp (negy pts) x <= interp (negy pts) x').
  { apply interp_mono; auto; [|apply negy_nd, sort_pts_nd]. apply rising_of; [|apply negy_nd, sort_pts_nd].
    intros p q Hp Hq L. apply in_map_iff in Hp as (p' & <- & Hp). apply in_map_iff in Hq as (q' & <- & Hq).
    apply pts_In in Hp as (i & Hi & ->). apply pts_In in Hq as (j & Hj & ->). cbn in *.
    destruct L as [L|L]; [specialize (H i j Hi Hj L); lra|]. apply nodup_nth_eq in L; auto. subst. lra. }
  rewrite !interp_negy in A. lra.
Qed.
Lemma interp1d_left i x : (i < length xs)%nat -> (forall k, (k < length xs)%nat -> nth i xs 0 <= nth k xs 0) ->
  x <= nth i xs 0 -> interp1d xs ys x = nth i ys 0.
Proof.
  intros Hi Hmin Hx. unfold interp1d. fold pts.
  assert (A := pts_asc). assert (Hin : In (nth i xs 0, nth i ys 0) pts) by (apply pts_In; eauto).
  destruct pts as [|[a b] l] eqn:E; [destruct Hin|].
  assert (a = nth i xs 0 /\ b = nth i ys 0) as [-> ->].
  { destruct Hin as [Hin|Hin]; [injection Hin as -> ->; auto|].
    apply (asc_head _ _ _ A) in Hin. cbn in Hin.
    assert (B : In (a, b) pts) by (rewrite E; left; auto). apply pts_In in B as (k & Hk & Ek). injection Ek as -> ->.
    specialize (Hmin k Hk). lra. }
  apply interp_left; [apply asc_nd, A|exact Hx|].
  destruct l as [|q l]; [lra|]. assert (B := asc_head _ _ q A (or_introl eq_refl)). cbn in B. lra.
Qed.
Lemma interp1d_right i x : (i < length xs)%nat -> (forall k, (k < length xs)%nat -> nth k xs 0 <= nth i xs 0) ->
  nth i xs 0 <= x -> interp1d xs ys x = nth i ys 0.
Proof.
  intros Hi Hmax Hx. unfold interp1d. fold pts.
  assert (Hin : In (nth i xs 0, nth i ys 0) pts) by (apply pts_In; eauto).
  assert (Hne : pts <> []) by (intros E; rewrite E in Hin; destruct Hin).
  assert (L : last pts (0, 0) = (nth i xs 0, nth i ys 0)).
  { assert (Hl : In (last pts (0, 0)) pts).
    { clear -Hne. induction pts as [|p l IH]; [congruence|]. destruct l as [|q l]; [left; auto|].
      right. apply IH. discriminate. }
    assert (Hge : forall l, ascending l -> forall p, In p l -> fst p <= fst (last l (0, 0))).
    { clear. induction l as [|a l IH]; intros H p Hp; [destruct Hp|]. destruct l as [|b l].
      - destruct Hp as [->|[]]. cbn. lra.
      - change (last (a :: b :: l) (0, 0)) with (last (b :: l) (0, 0)). destruct Hp as [->|Hp].
        + assert (X := asc_head _ _ b H (or_introl eq_refl)). assert (Y := IH (asc_tail _ _ H) b (or_introl eq_refl)). lra.
        + apply IH; eauto using asc_tail. }
    assert (G := Hge _ pts_asc _ Hin). cbn [fst] in G.
    apply pts_In in Hl as (k & Hk & Ek). rewrite Ek in *. cbn [fst] in G. specialize (Hmax k Hk).
    assert (k = i) by (apply nodup_nth_eq; auto; lra). subst. reflexivity. }
  rewrite (interp_right pts (0, 0)); auto using sort_pts_nd.
  - rewrite L. reflexivity.
  - apply sort_pts_nd.
  - rewrite L. exact Hx.
Qed.
End Interp1d.
Lemma interp1d_order xs ys xs' ys' x : length xs = length ys -> NoDup xs ->
  Permutation (combine xs ys) (combine xs' ys') -> interp1d xs ys x = interp1d xs' ys' x.
Proof.
  intros Hl Hd P. unfold interp1d. f_equal. apply sort_pts_order; auto. rewrite combine_fst; auto.
Qed.
Lemma Int_part_unique r z : IZR z <= r < IZR z + 1 -> Int_part r = z.
Proof.
  intros [A B]. destruct (base_Int_part r) as [C D].
  assert (IZR z < IZR (Int_part r) + 1) by lra. assert (IZR (Int_part r) < IZR z + 1) by lra.
  rewrite <- plus_IZR in *. apply lt_IZR in H. apply lt_IZR in H0. lia.
Qed.
