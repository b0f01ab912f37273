(** Property theorems C26 (surface.py:1457-1529). *)
From Coq Require Import String Reals List Bool Arith ZArith Lra Lia Permutation.
From Verif Require Import Base RList ModelMath ModelParams ModelHeights ModelGeom ProofGeom ProofParams ModelHomog.
Import ListNotations.
Local Open Scope R_scope.

(** ** The Gini core: 1 - Gini of a list of non-negative numbers *)
Theorem C26_gini_range : forall l v, (forall x, In x l -> 0 <= x) -> gini_h l = Some v -> 0 <= v <= 1.
Proof.
  intros l v P E. destruct (list_eq_dec Req_EM_T l []) as [->|Hne].
  { unfold gini_h in E. cbn in E. injection E as <-. lra. }
  destruct (gini_value l v Hne E) as [N ->].
  assert (T : 0 < sumR l) by (assert (X := sumR_nonneg l P); lra).
  assert (S := sortR_sorted l). assert (Pm := sortR_perm l). assert (Ls := sortR_length l).
  assert (U := lorenz_upper _ S). rewrite Ls, <- (sumR_perm _ _ Pm) in U.
  assert (Ln : 0 < INR (length l)) by (apply INR_len_pos, Hne).
  set (W := sumR (cumsum 0 (sortR l))) in *.
  assert (Wl : sumR l <= W).
  { unfold W. apply sumR_In_le.
    - intros y Hy. apply (cumsum_nonneg (sortR l)) with (a := 0); [|lra|exact Hy]. intros z Hz. apply P. apply sortR_In, Hz.
    - rewrite (sumR_perm _ _ Pm). assert (C := cumsum_last (sortR l) 0). rewrite Rplus_0_l in C. rewrite <- C.
      destruct (sortR l) as [|a s] eqn:Es; [apply f_equal with (f := @length R) in Es; rewrite Ls in Es; destruct l; [congruence|discriminate]|].
      assert (Hx : forall (l : list R) d, l <> [] -> In (last l d) l).
      { intros k d Hk. destruct (exists_last Hk) as (k' & b & ->). rewrite last_last. apply in_app_iff. right. left. reflexivity. }
      apply Hx. discriminate. }
  assert (Q : 1 <= W / sumR l <= (INR (length l) + 1) / 2).
  { split; apply Rmult_le_reg_r with (sumR l); try exact T; unfold Rdiv; rewrite ?Rmult_assoc, ?Rinv_l, ?Rmult_1_r by lra; nra. }
  set (q := W / sumR l) in *. split.
  - apply Rmult_le_pos; [apply Rlt_le, Rdiv_lt_0_compat; lra|lra].
  - replace 1 with (2 / INR (length l) * (INR (length l) / 2)) at 2 by (field; lra).
    apply Rmult_le_compat_l; [apply Rlt_le, Rdiv_lt_0_compat; lra|lra].
Qed.
Theorem C26_gini_positive : forall l v, l <> [] -> (forall x, In x l -> 0 <= x) -> gini_h l = Some v -> 0 < v.
Proof.
  intros l v Hne P E. destruct (gini_value l v Hne E) as [N ->].
  assert (T : 0 < sumR l) by (assert (X := sumR_nonneg l P); lra).
  assert (Ln : 0 < INR (length l)) by (apply INR_len_pos, Hne). assert (Pm := sortR_perm l). assert (Ls := sortR_length l).
  apply Rmult_lt_0_compat; [apply Rdiv_lt_0_compat; lra|].
  assert (sumR l <= sumR (cumsum 0 (sortR l))).
  { apply sumR_In_le.
    - intros y Hy. apply (cumsum_nonneg (sortR l)) with (a := 0); [|lra|exact Hy]. intros z Hz. apply P. apply sortR_In, Hz.
    - rewrite (sumR_perm _ _ Pm). assert (C := cumsum_last (sortR l) 0). rewrite Rplus_0_l in C. rewrite <- C.
      destruct (sortR l) as [|a s] eqn:Es; [apply f_equal with (f := @length R) in Es; rewrite Ls in Es; destruct l; [congruence|discriminate]|].
      assert (Hx : forall (l : list R) d, l <> [] -> In (last l d) l).
      { intros k d Hk. destruct (exists_last Hk) as (k' & b & ->). rewrite last_last. apply in_app_iff. right. left. reflexivity. }
      apply Hx. discriminate. }
  assert (1 <= sumR (cumsum 0 (sortR l)) / sumR l); [|lra].
  apply Rmult_le_reg_r with (sumR l); [exact T|]. unfold Rdiv; rewrite Rmult_assoc, Rinv_l by lra. lra.
Qed.
Theorem C26_gini_one_iff_equal : forall l v, l <> [] -> (forall x, In x l -> 0 <= x) -> gini_h l = Some v ->
  (v = 1 <-> forall x y, In x l -> In y l -> x = y).
Proof.
  intros l v Hne P E. destruct (gini_value l v Hne E) as [N ->].
  assert (Ln : 0 < INR (length l)) by (apply INR_len_pos, Hne). assert (Pm := sortR_perm l). assert (Ls := sortR_length l).
  assert (K : 2 / INR (length l) * (sumR (cumsum 0 (sortR l)) / sumR l - 1 / 2) = 1 <->
              2 * sumR (cumsum 0 (sortR l)) = (INR (length l) + 1) * sumR l).
  { split; intros X.
    - apply (f_equal (fun z => z * (INR (length l) * sumR l))) in X.
      replace (2 / INR (length l) * (sumR (cumsum 0 (sortR l)) / sumR l - 1 / 2) * (INR (length l) * sumR l)) with (2 * sumR (cumsum 0 (sortR l)) - sumR l) in X by (field; lra). lra.
    - replace (2 / INR (length l) * (sumR (cumsum 0 (sortR l)) / sumR l - 1 / 2)) with ((2 * sumR (cumsum 0 (sortR l)) - sumR l) / (INR (length l) * sumR l)) by (field; lra).
      rewrite X. field. lra. }
  rewrite K. split.
  - intros X x y Hx Hy. apply (lorenz_eq_const (sortR l) (sortR_sorted l)); [|apply sortR_In; assumption..].
    rewrite Ls, <- (sumR_perm _ _ Pm). exact X.
  - intros X. assert (R : exists w, sortR l = repeat w (length l)).
    { destruct l as [|w l']; [congruence|]. exists w. rewrite <- Ls.
      apply (Forall_eq_repeat (x := w)). apply Forall_forall. intros y Hy. apply X; [left; reflexivity|]. apply sortR_In, Hy. }
    destruct R as [w R]. rewrite (sumR_perm _ _ Pm). rewrite R. apply lorenz_const.
Qed.
Theorem C26_gini_order : forall l l', Permutation l l' -> gini_h l' = gini_h l.
Proof. intros l l' P. unfold gini_h. now rewrite (sortR_perm_eq _ _ P). Qed.
Theorem C26_gini_nan : forall l, l <> [] -> (forall x, In x l -> 0 <= x) -> (gini_h l = None <-> forall x, In x l -> x = 0).
Proof.
  intros l Hne P. unfold gini_h. rewrite <- (sumR_perm _ _ (sortR_perm l)), sortR_length.
  destruct (Nat.eqb_spec (length l) 0) as [L0|_]; [destruct l; [congruence|discriminate]|].
  destruct (Req_EM_T (sumR l) 0) as [Z|N]; split.
  - intros _. apply sumR_zero; auto.
  - reflexivity.
  - discriminate.
  - intros Z. exfalso. apply N. rewrite <- (map_id l), (sumR_ext _ (fun _ => 0)) by exact Z. rewrite sumR_map_const. ring.
Qed.

(** ** Rounding *)
Lemma pyround_range x a b : IZR a <= x <= IZR b -> (a <= pyround x <= b)%Z.
Proof.
  intros H. unfold pyround. assert (B := Int_part_bounds x). set (k := Int_part x) in *.
  assert (A1 : (a < k + 1)%Z) by (apply lt_IZR; rewrite plus_IZR; lra).
  destruct (Z.eq_dec k b) as [->|Nb].
  - assert (x = IZR b) by lra. destruct (Rlt_dec (x - IZR b) (1 / 2)); [lia|lra].
  - assert (A2 : (k <= b)%Z) by (apply le_IZR; lra). repeat destruct Rlt_dec; try destruct (Z.even k); lia.
Qed.
Lemma pow10_pos k : 0 < 10 ^ k.
Proof. apply pow_lt. lra. Qed.
Lemma npround_nonneg k x : 0 <= x -> 0 <= npround k x.
Proof.
  intros H. unfold npround. assert (P := pow10_pos k). apply Rmult_le_pos; [|apply Rlt_le, Rinv_0_lt_compat, P].
  assert (X : 0 <= x * 10 ^ k) by (apply Rmult_le_pos; lra). assert (C := pyround_close (x * 10 ^ k)).
  assert (X0 : (-1 < pyround (x * 10 ^ k))%Z). { apply lt_IZR. unfold Rabs in C. destruct Rcase_abs; lra. }
  apply IZR_le. lia.
Qed.
Lemma pow10_IZR k : 10 ^ k = IZR (10 ^ Z.of_nat k).
Proof. rewrite <- (pow_IZR 10 k). reflexivity. Qed.
Lemma npround_unit k x : 0 <= x <= 1 -> 0 <= npround k x <= 1.
Proof.
  intros H. assert (P := pow10_pos k). split; [apply npround_nonneg; lra|].
  unfold npround. apply Rmult_le_reg_r with (10 ^ k); [exact P|]. unfold Rdiv. rewrite Rmult_assoc, Rinv_l by lra.
  rewrite Rmult_1_r, Rmult_1_l. destruct (pyround_range (x * 10 ^ k) 0 (10 ^ Z.of_nat k)) as [_ U].
  - rewrite <- pow10_IZR. split; [apply Rmult_le_pos; lra|]. nra.
  - rewrite (pow10_IZR k) at 2. apply IZR_le, U.
Qed.
Lemma npround_one k : npround k 1 = 1.
Proof. unfold npround. rewrite Rmult_1_l, pow10_IZR, pyround_IZR. apply Rinv_r. rewrite <- pow10_IZR. assert (P := pow10_pos k). lra. Qed.
Lemma npround_pos k x : / 10 ^ k <= x -> 0 < npround k x.
Proof.
  intros H. assert (P := pow10_pos k). unfold npround. apply Rdiv_lt_0_compat; [|exact P].
  assert (1 <= x * 10 ^ k) by (apply Rmult_le_reg_r with (/ 10 ^ k); [apply Rinv_0_lt_compat, P|rewrite Rmult_assoc, Rinv_r by lra; lra]).
  assert (C := pyround_close (x * 10 ^ k)). unfold Rabs in C. destruct Rcase_abs; lra.
Qed.
Lemma osum_all l : (exists s, osum l = Some s) <-> forall o, In o l -> o <> None.
Proof.
  induction l as [|o l IH]; [split; [intros _ ? []|eexists; reflexivity]|]. cbn. split.
  - intros [s E] o' [<-|H]; [destruct o; [discriminate|discriminate]|]. destruct o; [|discriminate].
    destruct (osum l) eqn:El; [|discriminate]. apply IH; eauto.
  - intros H. destruct o as [x|]; [|destruct (H None (or_introl eq_refl) eq_refl)].
    destruct (proj2 IH (fun o' H' => H o' (or_intror H'))) as [s ->]. eauto.
Qed.
Lemma osum_sum l s : osum l = Some s -> exists xs, l = map Some xs /\ s = sumR xs.
Proof.
  revert s. induction l as [|o l IH]; intros s E; cbn in E; [injection E as <-; exists []; split; reflexivity|].
  destruct o as [x|]; [|discriminate]. destruct (osum l) as [t|]; [|discriminate]. injection E as <-.
  destruct (IH t eq_refl) as (xs & -> & ->). exists (x :: xs). split; reflexivity.
Qed.
Lemma omean_mean l m : omean l = Some m -> exists xs, xs <> [] /\ l = map Some xs /\ m = meanR xs.
Proof.
  intros E. destruct l as [|o l]; [discriminate|]. unfold omean in E. destruct (osum (o :: l)) as [s|] eqn:S; [|discriminate].
  cbn [option_map] in E. destruct (osum_sum _ _ S) as (xs & X & ->). exists xs. split; [intros ->; discriminate|]. split; [exact X|].
  apply (f_equal (@length _)) in X. rewrite map_length in X. rewrite X in E. injection E as <-. reflexivity.
Qed.

(** ** C26 for the method *)
(** the cell values the method looks at *)
Definition nonneg_param (param : string -> rgrid -> R) (ps : list string) : Prop := forall q c, In q ps -> 0 <= param q c.
Theorem C26_range : forall param ap ps per g ny nx sx sy v, nonneg_param param ps ->
  homogeneity param ap ps per g ny nx sx sy = Ok (Some v) -> 0 <= v <= 1.
Proof.
  intros param ap ps per g ny nx sx sy v P E. unfold homogeneity in E. destruct (existsb is_disallowed ps); [discriminate|].
  destruct (match per with Some p => Ok p | None => ap end) as [p|]; [|discriminate]. cbn [rbind] in E.
  destruct (pytrunc (p / sx) <=? 0)%Z; [discriminate|]. destruct (pytrunc (p / sy) <=? 0)%Z; [discriminate|].
  match type of E with Ok (option_map _ (omean ?h)) = _ => set (H := h) in *; destruct (omean H) as [m|] eqn:M end; [|discriminate].
  cbn in E. injection E as <-. apply npround_unit. destruct (omean_mean _ _ M) as (xs & Ne & X & ->).
  apply meanR_between; [exact Ne|]. intros x Hx. assert (Hs : In (Some x) H) by (rewrite X; apply in_map, Hx).
  unfold H in Hs. apply in_map_iff in Hs as (q & G & Hq). apply (C26_gini_range _ _ ) in G; [exact G|].
  intros y Hy. apply in_map_iff in Hy as (c & <- & _). apply npround_nonneg, P, Hq.
Qed.
(** A disallowed parameter is refused whatever the surface, the period (even one that cannot be computed) and the
    other parameters. *)
Theorem C26_disallowed : forall param ap ps per g ny nx sx sy q,
  In q ps -> In q ["Ssk"; "depth"; "homogeneity"; "orientation"; "aspect_ratio"; "period"]%string ->
  homogeneity param ap ps per g ny nx sx sy = Err ValueError.
Proof.
  intros. unfold homogeneity. replace (existsb is_disallowed ps) with true; [reflexivity|]. symmetry.
  apply existsb_exists. exists q. split; [assumption|]. apply existsb_exists. exists q. split; [assumption|]. apply String.eqb_refl.
Qed.
Definition allowed (ps : list string) : Prop := forall q, In q ps -> ~ In q disallowed.
Lemma allowed_spec ps : allowed ps -> existsb is_disallowed ps = false.
Proof.
  intros A. destruct (existsb is_disallowed ps) eqn:E; [|reflexivity]. exfalso. apply existsb_exists in E as (q & Hq & D).
  apply existsb_exists in D as (x & Hx & D). apply String.eqb_eq in D. subst x. exact (A q Hq Hx).
Qed.
Lemma trunc_pos p s : 0 < s -> s <= p -> (1 <= pytrunc (p / s))%Z.
Proof.
  intros Hs H. assert (1 <= p / s) by (apply Rmult_le_reg_r with s; [exact Hs|]; unfold Rdiv; rewrite Rmult_assoc, Rinv_l by lra; lra).
  destruct (pytrunc_bounds (p / s)) as [B _]; [lra|]. assert (0 < pytrunc (p / s))%Z; [|lia]. apply lt_IZR. lra.
Qed.
(** cell edge length in samples, and the number of whole cells per direction *)
Definition edge (p s : R) : nat := Z.to_nat (pytrunc (p / s)).
Lemma homogeneity_value param ap ps p g ny nx sx sy : allowed ps -> 0 < sx -> 0 < sy -> sx <= p -> sy <= p ->
  homogeneity param ap ps (Some p) g ny nx sx sy =
  Ok (option_map (npround 4) (omean (map (fun q => gini_h (map (fun c => npround 8 (param q c))
        (cells g (edge p sy) (edge p sx) (ny / edge p sy) (nx / edge p sx)))) ps))).
Proof.
  intros A Sx Sy Px Py. unfold homogeneity. rewrite (allowed_spec ps A). cbn [rbind].
  assert (X := trunc_pos p sx Sx Px). assert (Y := trunc_pos p sy Sy Py).
  destruct (Z.leb_spec (pytrunc (p / sx)) 0); [lia|]. destruct (Z.leb_spec (pytrunc (p / sy)) 0); [lia|]. reflexivity.
Qed.
Lemma edge_pos p s : 0 < s -> s <= p -> (1 <= edge p s)%nat.
Proof. intros A B. assert (X := trunc_pos p s A B). unfold edge. lia. Qed.
Lemma cells_length g cy cx a b : length (cells g cy cx a b) = (a * b)%nat.
Proof.
  unfold cells. generalize (seq_length a 0). generalize (seq 0 a) as l. intros l <-. induction l as [|i l IH]; [reflexivity|].
  cbn [flat_map]. rewrite app_length, map_length, seq_length, IH. reflexivity.
Qed.
(** every cell is a block of the surface, cut at multiples of the edge, and the blocks lie inside *)
Theorem C26_cells_are_blocks : forall g cy cx ncy ncx c, In c (cells g cy cx ncy ncx) <->
  exists i j, (i < ncy)%nat /\ (j < ncx)%nat /\ c = map (fun r => firstn cx (skipn (cx * j) r)) (firstn cy (skipn (cy * i) g)).
Proof.
  intros. unfold cells. rewrite in_flat_map. split.
  - intros (i & Hi & Hc). apply in_map_iff in Hc as (j & <- & Hj). apply in_seq in Hi, Hj. exists i, j. repeat split; lia.
  - intros (i & j & Hi & Hj & ->). exists i. split; [apply in_seq; lia|]. apply in_map_iff. exists j. split; [reflexivity|apply in_seq; lia].
Qed.
(** a number as soon as every parameter exceeds the rounding unit 1e-8 in some cell *)
Theorem C26_is_number_partial : forall param ap ps p g ny nx sx sy, allowed ps -> ps <> [] -> nonneg_param param ps ->
  0 < sx -> 0 < sy -> sx <= p -> sy <= p ->
  (forall q, In q ps -> exists c, In c (cells g (edge p sy) (edge p sx) (ny / edge p sy) (nx / edge p sx)) /\ / 10 ^ 8 <= param q c) ->
  exists v, homogeneity param ap ps (Some p) g ny nx sx sy = Ok (Some v) /\ 0 <= v <= 1.
Proof.
  intros param ap ps p g ny nx sx sy A Ne P Sx Sy Px Py H.
  rewrite homogeneity_value by assumption. set (cs := cells _ _ _ _ _) in *.
  assert (S : exists m, omean (map (fun q => gini_h (map (fun c => npround 8 (param q c)) cs)) ps) = Some m).
  { unfold omean. destruct ps as [|q0 ps']; [congruence|]. cbn [map].
    destruct (proj2 (osum_all (map (fun q => gini_h (map (fun c => npround 8 (param q c)) cs)) (q0 :: ps')))) as [s E].
    - intros o Ho. apply in_map_iff in Ho as (q & <- & Hq). destruct (H q Hq) as (c & Hc & B).
      intros N. rewrite C26_gini_nan in N.
      + assert (X := npround_pos 8 _ B). rewrite N in X; [lra|]. apply (in_map (fun c => npround 8 (param q c))), Hc.
      + destruct cs; [destruct Hc|discriminate].
      + intros x Hx. apply in_map_iff in Hx as (d & <- & _). apply npround_nonneg, P, Hq.
    - cbn [map] in E. rewrite E. cbn. eauto. }
  destruct S as [m M]. rewrite M. exists (npround 4 m). split; [reflexivity|].
  apply (C26_range param ap ps (Some p) g ny nx sx sy _ P). rewrite homogeneity_value by assumption. fold cs. rewrite M. reflexivity.
Qed.
(** 1 when all cells agree (and the common value does not round to 0) *)
Theorem C26_equal_cells : forall param ap ps p g ny nx sx sy, allowed ps -> ps <> [] ->
  0 < sx -> 0 < sy -> sx <= p -> sy <= p -> (edge p sx <= nx)%nat -> (edge p sy <= ny)%nat ->
  (forall q, In q ps -> exists w, / 10 ^ 8 <= w /\
     forall c, In c (cells g (edge p sy) (edge p sx) (ny / edge p sy) (nx / edge p sx)) -> param q c = w) ->
  homogeneity param ap ps (Some p) g ny nx sx sy = Ok (Some 1).
Proof.
  intros param ap ps p g ny nx sx sy A Ne Sx Sy Px Py Ex Ey H. rewrite homogeneity_value by assumption.
  assert (L := cells_length g (edge p sy) (edge p sx) (ny / edge p sy) (nx / edge p sx)). set (cs := cells _ _ _ _ _) in *.
  assert (Ecs : cs <> []).
  { assert (1 <= ny / edge p sy)%nat by (apply Nat.div_le_lower_bound; [assert (X := edge_pos p sy Sy Py)|]; lia).
    assert (1 <= nx / edge p sx)%nat by (apply Nat.div_le_lower_bound; [assert (X := edge_pos p sx Sx Px)|]; lia).
    intros E. rewrite E in L. cbn [length] in L. nia. }
  assert (G : map (fun q => gini_h (map (fun c => npround 8 (param q c)) cs)) ps = map (fun _ => Some 1) ps).
  { apply map_ext_in. intros q Hq. destruct (H q Hq) as (w & W & Hw). assert (Wp := npround_pos 8 _ W).
    set (l := map (fun c => npround 8 (param q c)) cs).
    assert (Hl : forall x, In x l -> x = npround 8 w) by (intros x Hx; apply in_map_iff in Hx as (c & <- & Hc); rewrite (Hw c Hc); reflexivity).
    assert (Nl : l <> []) by (destruct cs; [congruence|discriminate]).
    assert (Pl : forall x, In x l -> 0 <= x) by (intros x Hx; rewrite (Hl x Hx); lra).
    destruct (gini_h l) as [v|] eqn:E.
    - f_equal. apply (C26_gini_one_iff_equal l v Nl Pl E). intros x y Hx Hy. rewrite (Hl x Hx), (Hl y Hy). reflexivity.
    - exfalso. rewrite (C26_gini_nan l Nl Pl) in E. destruct l as [|x l']; [congruence|].
      specialize (E x (or_introl eq_refl)). rewrite (Hl x (or_introl eq_refl)) in E. lra. }
  rewrite G. assert (M : omean (map (fun _ => Some 1) ps) = Some 1).
  { assert (S : osum (map (fun _ => Some 1) ps) = Some (INR (length ps))).
    { clear. induction ps as [|q ps IH]; [reflexivity|]. cbn [map osum]. rewrite IH. cbn [length]. rewrite S_INR. f_equal. lra. }
    unfold omean. destruct ps as [|q ps']; [congruence|]. cbn [map]. cbn [map] in S. rewrite S. cbn [option_map]. f_equal.
    cbn [length]. rewrite map_length. field. apply not_0_INR. discriminate. }
  rewrite M. cbn [option_map]. now rewrite npround_one.
Qed.
(** refuted: "is a number": a flat surface (Sa = 0 in every cell) gives nan *)
Theorem C26_is_number_refuted : forall ap g ny nx sx sy p, 0 < sx -> 0 < sy -> sx <= p -> sy <= p ->
  (edge p sx <= nx)%nat -> (edge p sy <= ny)%nat ->
  homogeneity (fun _ _ => 0) ap ["Sa"%string] (Some p) g ny nx sx sy = Ok None.
Proof.
  intros ap g ny nx sx sy p Sx Sy Px Py Ex Ey. rewrite homogeneity_value; auto.
  2:{ intros q [<-|[]] H. repeat (destruct H as [H|H]; [discriminate|]). destruct H. }
  assert (L := cells_length g (edge p sy) (edge p sx) (ny / edge p sy) (nx / edge p sx)). set (cs := cells _ _ _ _ _) in *.
  assert (Ecs : cs <> []).
  { assert (1 <= ny / edge p sy)%nat by (apply Nat.div_le_lower_bound; [assert (X := edge_pos p sy Sy Py)|]; lia).
    assert (1 <= nx / edge p sx)%nat by (apply Nat.div_le_lower_bound; [assert (X := edge_pos p sx Sx Px)|]; lia).
    intros E. rewrite E in L. cbn [length] in L. nia. }
  assert (N0 : npround 8 0 = 0) by (unfold npround; rewrite Rmult_0_l, pyround_IZR; unfold Rdiv; ring).
  cbn [map]. replace (gini_h _) with (@None R); [reflexivity|]. symmetry. apply C26_gini_nan.
  - destruct cs; [congruence|discriminate].
  - intros x Hx. apply in_map_iff in Hx as (c & <- & _). rewrite N0. lra.
  - intros x Hx. apply in_map_iff in Hx as (c & <- & _). exact N0.
Qed.
(** a period longer than the surface leaves no cell and the answer is 0, not an error *)
Theorem C26_no_cell : forall param ap ps p g ny nx sx sy, allowed ps -> ps <> [] -> 0 < sx -> 0 < sy -> sx <= p -> sy <= p ->
  (nx < edge p sx)%nat -> homogeneity param ap ps (Some p) g ny nx sx sy = Ok (Some 0).
Proof.
  intros param ap ps p g ny nx sx sy A Ne Sx Sy Px Py Ex. rewrite homogeneity_value by assumption.
  rewrite (Nat.div_small nx) by exact Ex. assert (L := cells_length g (edge p sy) (edge p sx) (ny / edge p sy) 0). set (cs := cells _ _ _ _ _) in *.
  assert (Ecs : cs = []) by (apply length_zero_iff_nil; lia). rewrite Ecs. cbn [map].
  rewrite (map_ext _ (fun _ => Some 0)) by (intros; unfold gini_h; cbn; f_equal; field).
  assert (M : omean (map (fun _ : string => Some 0) ps) = Some 0).
  { assert (S : osum (map (fun _ : string => Some 0) ps) = Some 0).
    { clear. induction ps as [|q ps IH]; [reflexivity|]. cbn [map osum]. rewrite IH. f_equal. lra. }
    unfold omean. destruct ps as [|q ps']; [congruence|]. cbn [map]. cbn [map] in S. rewrite S. cbn [option_map]. f_equal. unfold Rdiv. ring. }
  rewrite M. cbn [option_map]. f_equal. f_equal. unfold npround. rewrite Rmult_0_l, pyround_IZR. unfold Rdiv. ring.
Qed.
Theorem C26_example : allowed ["Sa"; "Sku"; "Sdr"]%string /\ edge 2 1 = 2%nat /\
  length (cells [[1;2;1;2];[3;4;3;4]] (edge 2 1) (edge 2 1) (2 / edge 2 1) (4 / edge 2 1)) = 2%nat.
Proof.
  assert (E : edge 2 1 = 2%nat) by (unfold edge; replace (2 / 1) with (IZR 2) by field; now rewrite pytrunc_IZR).
  split; [|split; [exact E|rewrite E; reflexivity]].
  intros q [<-|[<-|[<-|[]]]] H; repeat (destruct H as [H|H]; [discriminate|]); destruct H.
Qed.
