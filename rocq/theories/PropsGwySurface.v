(** C81: the surface of a Gwyddion file. *)
From Coq Require Import String Ascii ZArith NArith Lia Bool Permutation.
From Coq Require Import List.
From Flocq Require Import IEEE754.Binary IEEE754.Bits.
From Verif Require Import Base ModelBytes ModelUnits ModelSur ModelFormats ModelReaders ModelGwy SpecReaders SpecGwy ProofBytes PropsMagic PropsLayout ProofReaders ProofGwy ProofGwySurface.
Import ListNotations.
Local Open Scope list_scope.
Local Open Scope Z_scope.

Lemma nth_error_ext {A} : forall (l l' : list A), (forall j, nth_error l j = nth_error l' j) -> l = l'.
Proof.
  induction l as [|x l IH]; intros [|y l'] H; [reflexivity|discriminate (H 0%nat)|discriminate (H 0%nat)|].
  pose proof (H 0%nat) as E. cbn in E. injection E as ->. f_equal. apply IH. intros j. exact (H (S j)).
Qed.
Lemma table_unique {A} (m m' : list (list A)) ny nx P : table_is m ny nx P -> table_is m' ny nx P -> (forall i j x y, P i j x -> P i j y -> x = y) -> m = m'.
Proof.
  intros [L1 H1] [L2 H2] U. apply (nth_ext _ _ [] []); [congruence|]. intros i Hi. rewrite L1 in Hi.
  destruct (H1 i Hi) as (r & E1 & Lr & R1). destruct (H2 i Hi) as (r' & E2 & Lr' & R2).
  rewrite (nth_error_nth _ _ [] E1), (nth_error_nth _ _ [] E2). apply nth_error_ext. intros j.
  destruct (Nat.lt_ge_cases j nx) as [Hj|Hj].
  - destruct (R1 j Hj) as (x & X1 & X2). destruct (R2 j Hj) as (y & Y1 & Y2). rewrite X1, Y1. f_equal. exact (U _ _ _ _ X2 Y2).
  - rewrite !(proj2 (nth_error_None _ _)) by lia. reflexivity.
Qed.
Lemma gflt_iff v x : gflt v = Ok x <-> v = GFloat x.
Proof. destruct v; cbn; split; intros H; try discriminate; congruence. Qed.
Lemma gint_iff v x : gint v = Ok x <-> v = GInt x.
Proof. destruct v; cbn; split; intros H; try discriminate; congruence. Qed.
Lemma gtext_iff v x : gtext v = Ok x <-> v = GStr x.
Proof. destruct v; cbn; split; intros H; try discriminate; congruence. Qed.
Lemma gfloats_iff v x : gfloats v = Ok x <-> v = GFloats x.
Proof. destruct v; cbn; split; intros H; try discriminate; congruence. Qed.
Lemma item_then {A B} (v : gval) k (g : gval -> res A) (w : A -> gval) (f : A -> res B) (y : B) : (forall u x, g u = Ok x <-> u = w x) ->
  (rbind (rbind (gitem v k) g) f = Ok y <-> exists x, inside v [k] = Some (w x) /\ f x = Ok y).
Proof.
  intros G. split.
  - intros H. apply rbind_ok in H as (x & H1 & H2). apply rbind_ok in H1 as (u & H1 & H3). apply G in H3. subst u. apply gitem_iff in H1. eauto.
  - intros (x & H1 & H2). apply gitem_iff in H1. rewrite H1. cbn [rbind]. rewrite (proj2 (G _ _) eq_refl). exact H2.
Qed.
Lemma unit_then {B} (v : gval) k (f : pystr -> res B) (y : B) :
  (rbind (rbind (unit_of v k) gtext) f = Ok y <-> exists x, inside v [str k; str "GwySIUnit"; str "unitstr"] = Some (GStr x) /\ f x = Ok y).
Proof.
  split.
  - intros H. apply rbind_ok in H as (x & H1 & H2). apply rbind_ok in H1 as (u & H1 & H3). apply gtext_iff in H3. subst u. apply unit_of_iff in H1. eauto.
  - intros (x & H1 & H2). apply unit_of_iff in H1. rewrite H1. exact H2.
Qed.
Lemma factor_then {B} lower u (f : f64 -> res B) (y : B) :
  (rbind (unit_factor lower u) f = Ok y <-> exists e, conversion_exponent lower u (str "um") = Ok e /\ f (pow10 e) = Ok y).
Proof.
  unfold unit_factor. destruct (conversion_exponent lower u (str "um")) as [e|]; cbn [rmap rbind]; split.
  - eauto.
  - intros (e' & E & H). injection E as <-. exact H.
  - discriminate.
  - intros (e' & E & _). discriminate.
Qed.
(** the mask *)
Definition hide (m data : list f64) : list f64 := map (fun '(b, x) => if truthy b then nan64 else x) (combine m data).
Lemma truthy_iff x : truthy x = true <-> forall b, x <> B754_zero 53 1024 b.
Proof. destruct x; cbn; split; intros H; try reflexivity; try discriminate. exfalso. exact (H s eq_refl). Qed.
Lemma mask_iff c k data data' : (exists d, c = GDict d) ->
  (gwy_mask c k data = Ok data' <->
   (inside c [path_key k "/mask"] = None /\ data' = data) \/
   (exists m, inside c [path_key k "/mask"; str "GwyDataField"; str "data"] = Some (GFloats m) /\ length m = length data /\ data' = hide m data)).
Proof.
  intros (d & ->). unfold gwy_mask. change (slash k "/mask") with (path_key k "/mask"). cbn [ghas rbind]. rewrite gget_entry.
  destruct (entry d (path_key k "/mask")) as [v|] eqn:E.
  - assert (E' : inside (GDict d) [path_key k "/mask"] = Some v) by (cbn [inside]; rewrite E; reflexivity).
    rewrite (proj2 (gitem_iff _ _ _) E'). cbn [rbind]. split.
    + intros H. right. apply rbind_ok in H as (f & H1 & H). apply rbind_ok in H as (dv & H2 & H). apply rbind_ok in H as (m & H3 & H).
      destruct (Nat.eqb_spec (length m) (length data)) as [L|]; [|discriminate]. apply ok_inj in H. subst data'. apply gfloats_iff in H3. subst dv. apply gitem_iff in H1, H2.
      exists m. split; [|split; [exact L|reflexivity]]. apply inside_cons. exists v. split; [exact E'|]. apply inside_cons. exists f. auto.
    + intros [[H _]|(m & H1 & H2 & ->)]; [congruence|]. apply inside_cons in H1 as (v' & H1 & H3). assert (v' = v) by congruence. subst v'.
      apply inside_cons in H3 as (f & H3 & H4). apply gitem_iff in H3, H4. rewrite H3. cbn [rbind]. rewrite H4. cbn [rbind gfloats]. rewrite (proj2 (Nat.eqb_eq _ _) H2). reflexivity.
  - assert (E' : inside (GDict d) [path_key k "/mask"] = None) by (cbn [inside]; rewrite E; reflexivity). split.
    + intros H. apply ok_inj in H. left. auto.
    + intros [[_ ->]|(m & H1 & _)]; [reflexivity|]. apply inside_cons in H1 as (y & H1 & _). congruence.
Qed.
Lemma meta_iff c k : (exists d, c = GDict d) -> (gwy_meta c k = Ok tt <-> meta_fits c k).
Proof.
  intros (d & ->). unfold gwy_meta, meta_fits. change (slash k "/meta") with (path_key k "/meta"). cbn [ghas rbind]. rewrite gget_entry.
  destruct (entry d (path_key k "/meta")) as [v|] eqn:E.
  - assert (E' : inside (GDict d) [path_key k "/meta"] = Some v) by (cbn [inside]; rewrite E; reflexivity).
    rewrite (proj2 (gitem_iff _ _ _) E'). cbn [rbind]. split.
    + intros H. right. apply rbind_ok in H as (f & H1 & H). destruct f; try discriminate. exists d0. apply inside_cons. exists v. split; [exact E'|]. apply gitem_iff, H1.
    + intros [H|(x & H)]; [congruence|]. apply inside_cons in H as (v' & H1 & H2). assert (v' = v) by congruence. subst v'. apply gitem_iff in H2. rewrite H2. reflexivity.
  - assert (E' : inside (GDict d) [path_key k "/meta"] = None) by (cbn [inside]; rewrite E; reflexivity). split; [auto|reflexivity].
Qed.
Lemma Some_inj {A} (x y : A) : Some x = Some y -> x = y.
Proof. intros H. congruence. Qed.
Lemma hide_nth m : forall data p x v, length m = length data -> nth_error m p = Some x -> nth_error data p = Some v ->
  nth_error (hide m data) p = Some (if truthy x then nan64 else v).
Proof.
  induction m as [|y m IH]; intros [|w data] [|p] x v L H1 H2; cbn in *; try discriminate; [apply Some_inj in H1, H2; subst; reflexivity|]. apply IH; auto.
Qed.
Lemma hide_length m data : length m = length data -> length (hide m data) = length data.
Proof. intros L. unfold hide. rewrite map_length, combine_length. lia. Qed.
(** what the mask leaves *)
Lemma masked_values c k data data' : gwy_mask c k data = Ok data' -> (exists d, c = GDict d) ->
  mask_fits c k (length data) /\ length data' = length data /\
  forall p v, nth_error data p = Some v -> exists x, nth_error data' p = Some x /\ (masked c k p -> x = nan64) /\ (~ masked c k p -> x = v).
Proof.
  intros H Hd. apply (mask_iff _ _ _ _ Hd) in H as [[H ->]|(m & H1 & H2 & ->)].
  - split; [left; exact H|]. split; [reflexivity|]. intros p v E. exists v. split; [exact E|]. split; [|reflexivity].
    intros (m & x & M & _). apply inside_cons in M as (y & M & _). congruence.
  - split; [right; eauto|]. split; [apply hide_length, H2|]. intros p v E.
    assert (Lp : (p < length m)%nat) by (rewrite H2; apply nth_error_Some; congruence). apply nth_error_Some in Lp. destruct (nth_error m p) as [x|] eqn:F; [|contradiction].
    rewrite (hide_nth m data p x v H2 F E). eexists. split; [reflexivity|]. split.
    + intros (m' & x' & M & N & T). assert (m' = m) by congruence. subst m'. assert (x' = x) by congruence. subst x'. rewrite (proj2 (truthy_iff x) T). reflexivity.
    + intros N. destruct (truthy x) eqn:T; [|reflexivity]. exfalso. apply N. exists m, x. split; [exact H1|]. split; [exact F|]. apply truthy_iff, T.
Qed.
Lemma mask_reads c k data : (exists d, c = GDict d) -> mask_fits c k (length data) -> exists data', gwy_mask c k data = Ok data'.
Proof.
  intros Hd [H|(m & H1 & H2)]; eexists; apply (mask_iff _ _ _ _ Hd); [left; eauto|right; eauto].
Qed.
(** the channels without a z unit, of the size and lateral unit of the heights *)
Definition gwy_layers (lower : pystr -> pystr) (order : list pystr -> list pystr) (im : bool) (c : gval) (f : channel) : res float_layers :=
  if im then rbind (layer_keys order c) (fun keys => rbind (rfilter (fun k => rbind (data_field c k) (fun f => rmap negb (ghas f (str "si_unit_z")))) keys)
                          (fun ks => gwy_images c (f_nx f) (f_ny f) (f_uxy f) ks [])) else Ok [].
Lemma masked_dec c k p : masked c k p \/ ~ masked c k p.
Proof.
  unfold masked. destruct (inside c [path_key k "/mask"; str "GwyDataField"; str "data"]) as [v|]; [|right; intros (m & x & H & _); discriminate].
  destruct v as [| | | | | | | l | | |]; try (right; intros (m & y & H & _); discriminate). destruct (nth_error l p) as [x|] eqn:E.
  - destruct (truthy x) eqn:T.
    + left. exists l, x. split; [reflexivity|]. split; [exact E|]. apply truthy_iff, T.
    + right. intros (m & y & H & N & F). assert (m = l) by congruence. subst m. assert (y = x) by congruence. subst y. apply truthy_iff in F. congruence.
  - right. intros (m & y & H & N & F). assert (m = l) by congruence. subst m. congruence.
Qed.
Lemma surface_iff lower order im tree s l : (forall l, Permutation (order l) l) ->
  (gwy_surface lower order im tree = Ok (s, l) <->
   exists c k f, inside tree [str "GwyContainer"] = Some c /\ heights_of lower c k f s /\ gwy_layers lower order im c f = Ok l).
Proof.
  intros Ho. unfold gwy_surface. split.
  - intros H. apply rbind_ok in H as (c & H1 & H). apply gitem_iff in H1. apply rbind_ok in H as (keys & H2 & H). apply rbind_ok in H as (k & H3 & H).
    assert (G : rbind (layer_keys order c) (guess_height_channel lower c) = Ok k) by (rewrite H2; exact H3). apply (guess_iff lower order c k Ho) in G as [G1 G2].
    apply rbind_ok in H as (fv & Hf & H). apply data_field_iff in Hf. pose proof (fun p x => proj1 (in_field_iff c k fv p x Hf)) as IF.
    apply (item_then _ _ _ _ _ _ gfloats_iff) in H as (data & D1 & H). apply unit_then in H as (uxy & D2 & H). apply unit_then in H as (uz & D3 & H).
    apply (item_then _ _ _ _ _ _ gflt_iff) in H as (xr & D4 & H). apply (item_then _ _ _ _ _ _ gflt_iff) in H as (yr & D5 & H).
    apply (item_then _ _ _ _ _ _ gint_iff) in H as (nx & D6 & H). apply (item_then _ _ _ _ _ _ gint_iff) in H as (ny & D7 & H).
    apply IF in D1, D2, D3, D4, D5, D6, D7. apply factor_then in H as (exy & X1 & H).
    destruct (Z.eqb_spec nx 0) as [|Nx]; [discriminate|]. destruct (Z.eqb_spec ny 0) as [|Ny]; [discriminate|]. cbn [orb] in H.
    apply factor_then in H as (ez & X2 & H). apply rbind_ok in H as (data' & M & H). apply rbind_ok in H as (m & R & H). apply rbind_ok in H as (u & Me & H). destruct u.
    apply rbind_ok in H as (ls & I1 & H). apply ok_inj, pair_equal_spec in H as [<- <-].
    pose proof (proj1 G1) as Hd. apply meta_iff in Me; [|exact Hd]. apply masked_values in M as (M1 & M2 & M3); [|exact Hd]. rewrite map_length in M1, M2.
    unfold reshape_z in R. destruct (Z.ltb_spec ny 0) as [|Py]; [discriminate|]. destruct (Z.ltb_spec nx 0) as [|Px]; [discriminate|]. cbn [orb] in R.
    apply (reshape_inv nan64) in R as [R1 ->].
    set (f := {| f_data := data; f_nx := nx; f_ny := ny; f_x := xr; f_y := yr; f_uxy := uxy |}). exists c, k, f.
    split; [exact H1|]. split.
    + unfold heights_of. split; [exact G1|]. split; [exact G2|]. split; [unfold shows; cbn [f f_data f_nx f_ny f_x f_y f_uxy]; auto 8|]. cbn [f f_data f_nx f_ny f_x f_y f_uxy rdata rstep_x rstep_y].
      split; [lia|]. split; [lia|]. split; [clear - R1 M2; unfold f64 in *; lia|]. split; [exact M1|]. split; [exact Me|].
      exists uz, ez, exy. split; [exact D3|]. split; [exact X2|]. split; [exact X1|]. split; [reflexivity|]. split; [reflexivity|].
      apply grid_is. intros i j Hi Hj. cbv zeta. set (p := (i * Z.to_nat nx + j)%nat).
      assert (Lp : (p < length data)%nat) by (clear - R1 M2 Hi Hj; unfold f64, p in *; nia).
      destruct (nth_error data p) as [v|] eqn:E; [|apply nth_error_None in E; lia].
      pose proof (map_nth_error (fun x : f64 => fmul x (pow10 ez)) p data E) as E'.
      destruct (M3 _ _ E') as (x & Q1 & Q2 & Q3). rewrite (nth_error_nth _ _ nan64 Q1). split; [exact Q2|]. intros N. exists v. split; [reflexivity|exact (Q3 N)].
    + unfold gwy_layers. destruct im; [rewrite H2; exact I1|exact I1].
  - intros (c & k & f & H1 & (G1 & G2 & (D1 & D6 & D7 & D4 & D5 & D2) & Px & Py & Ln & M & Me & uz & ez & exy & D3 & X2 & X1 & S1 & S2 & T) & I1).
    pose proof (proj1 G1) as Hd. rewrite (proj2 (gitem_iff _ _ _) H1). cbn [rbind].
    pose proof (proj2 (guess_iff lower order c k Ho) (conj G1 G2)) as G. apply rbind_ok in G as (keys & K1 & K2). rewrite K1. cbn [rbind]. rewrite K2. cbn [rbind].
    assert (F : exists fv, in_field c k [] = Some fv).
    { clear - D1. unfold in_field in *. change [path_key k "/data"; str "GwyDataField"; str "data"] with ([path_key k "/data"; str "GwyDataField"] ++ [str "data"]) in D1. rewrite inside_app in D1.
      destruct (inside c [path_key k "/data"; str "GwyDataField"]); [eauto|discriminate]. }
    destruct F as (fv & Hf). rewrite (proj2 (data_field_iff _ _ _) Hf). cbn [rbind]. pose proof (fun p x => proj2 (in_field_iff c k fv p x Hf)) as IF. unfold field_unit in D2, D3. apply IF in D1, D2, D3, D4, D5, D6, D7.
    apply (item_then _ _ _ _ _ _ gfloats_iff). exists (f_data f). split; [exact D1|]. apply unit_then. exists (f_uxy f). split; [exact D2|]. apply unit_then. exists uz. split; [exact D3|].
    apply (item_then _ _ _ _ _ _ gflt_iff). exists (f_x f). split; [exact D4|]. apply (item_then _ _ _ _ _ _ gflt_iff). exists (f_y f). split; [exact D5|].
    apply (item_then _ _ _ _ _ _ gint_iff). exists (f_nx f). split; [exact D6|]. apply (item_then _ _ _ _ _ _ gint_iff). exists (f_ny f). split; [exact D7|].
    apply factor_then. exists exy. split; [exact X1|]. destruct (Z.eqb_spec (f_nx f) 0) as [|_]; [lia|]. destruct (Z.eqb_spec (f_ny f) 0) as [|_]; [lia|]. cbn [orb].
    apply factor_then. exists ez. split; [exact X2|].
    destruct (mask_reads c k (map (fun x => fmul x (pow10 ez)) (f_data f)) Hd) as (data' & Md); [rewrite map_length; exact M|]. rewrite Md. cbn [rbind].
    apply masked_values in Md as (_ & M2 & M3); [|exact Hd]. rewrite map_length in M2.
    unfold reshape_z. destruct (Z.ltb_spec (f_ny f) 0) as [|_]; [lia|]. destruct (Z.ltb_spec (f_nx f) 0) as [|_]; [lia|]. cbn [orb].
    rewrite (reshape_ok nan64) by (clear - Ln M2; unfold f64 in *; lia). cbn [rbind]. rewrite (proj2 (meta_iff c k Hd) Me). cbn [rbind].
    assert (I2 : (if im then rbind (rfilter (fun k => rbind (data_field c k) (fun f => rmap negb (ghas f (str "si_unit_z")))) keys) (fun ks => gwy_images c (f_nx f) (f_ny f) (f_uxy f) ks []) else Ok []) = Ok l).
    { unfold gwy_layers in I1. destruct im; [rewrite K1 in I1; exact I1|exact I1]. }
    rewrite I2. cbn [rbind]. f_equal. f_equal. destruct s as [sd sx sy]. cbn [rdata rstep_x rstep_y] in *. rewrite S1, S2. f_equal.
    eapply table_unique; [|exact T|].
    + apply grid_is. intros i j Hi Hj. cbv zeta. set (p := (i * Z.to_nat (f_nx f) + j)%nat).
      assert (Lp : (p < length (f_data f))%nat) by (clear - Ln Hi Hj; unfold f64, p in *; nia).
      destruct (nth_error (f_data f) p) as [v|] eqn:E; [|apply nth_error_None in E; lia].
      pose proof (map_nth_error (fun x : f64 => fmul x (pow10 ez)) p (f_data f) E) as E'.
      destruct (M3 _ _ E') as (x & Q1 & Q2 & Q3). rewrite (nth_error_nth _ _ nan64 Q1). split; [exact Q2|]. intros N. exists v. split; [reflexivity|exact (Q3 N)].
    + cbv zeta. intros i j x y [A1 A2] [B1 B2]. destruct (masked_dec c k (i * Z.to_nat (f_nx f) + j)) as [Y|N].
      * rewrite A1, B1 by exact Y. reflexivity.
      * destruct (A2 N) as (v & V1 & ->). destruct (B2 N) as (w & W1 & ->). congruence.
Qed.

(** C81: reading without image layers succeeds exactly if the container describes heights, and gives these; in whatever order the
    channels are listed *)
Theorem C81_gwy : forall lower order tree (s : raw), (forall l, Permutation (order l) l) ->
  ((exists l, gwy_surface lower order false tree = Ok (s, l)) <->
   exists c k f, inside tree [str "GwyContainer"] = Some c /\ heights_of lower c k f s).
Proof.
  intros lower order tree s Ho. split.
  - intros (l & H). apply (surface_iff _ _ _ _ _ _ Ho) in H as (c & k & f & H1 & H2 & _). eauto.
  - intros (c & k & f & H1 & H2). exists []. apply (surface_iff _ _ _ _ _ _ Ho). exists c, k, f. auto.
Qed.
Theorem C81_gwy_any_order : forall lower order order' depth en (h : fh) s, (forall l, Permutation (order l) l) -> (forall l, Permutation (order' l) l) ->
  read_gwy lower order depth en false h = Ok s -> read_gwy lower order' depth en false h = Ok s.
Proof.
  intros lower order order' depth en h [s l] Ho Ho' H. unfold read_gwy in *. destruct (fread 4 h) as [m h1]. destruct (negb (zs_eqb m gwy_magic)); [discriminate|].
  destruct (gwy_container en depth h1) as [[tree h2]|]; [|discriminate]. cbn [rbind] in *.
  apply (surface_iff _ _ _ _ _ _ Ho) in H. apply (surface_iff _ _ _ _ _ _ Ho'). exact H.
Qed.
