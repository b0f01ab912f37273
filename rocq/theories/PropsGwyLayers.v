(** C81: the image layers of a Gwyddion file. *)
From Coq Require Import String Ascii ZArith NArith Lia Bool Permutation.
From Coq Require Import List.
From Flocq Require Import IEEE754.Binary IEEE754.Bits.
From Verif Require Import Base ModelBytes ModelUnits ModelSur ModelFormats ModelReaders ModelGwy SpecReaders SpecGwy ProofBytes PropsMagic PropsLayout ProofReaders ProofGwy ProofGwySurface PropsGwySurface.
Import ListNotations.
Local Open Scope list_scope.
Local Open Scope Z_scope.

Section layers.
Variable c : gval.
Variable f : channel.
Hypothesis Hx : 0 < f_nx f.
Hypothesis Hy : 0 < f_ny f.
(** one channel: nothing if it is of another size or lateral unit *)
Definition image_of (k : pystr) : res (option (pystr * list (list f64))) :=
  rbind (data_field c k) (fun fv =>
  rbind (rbind (title_of c k) gtext) (fun title =>
  rbind (rbind (gitem fv (str "data")) gfloats) (fun data =>
  rbind (rbind (unit_of fv "si_unit_xy") gtext) (fun u =>
  rbind (rbind (gitem fv (str "xres")) gint) (fun w =>
  rbind (rbind (gitem fv (str "yres")) gint) (fun hh =>
  if negb (w =? f_nx f) || negb (hh =? f_ny f) || negb (zs_eqb u (f_uxy f)) then Ok None
  else rmap (fun m => Some (title, m)) (reshape_z (f_ny f) (f_nx f) data))))))).
Definition put_image (a : float_layers) (k : pystr) : float_layers := match image_of k with Ok (Some (t, m)) => gput a t m | _ => a end.
Lemma images_iff keys : forall acc l, gwy_images c (f_nx f) (f_ny f) (f_uxy f) keys acc = Ok l <->
  Forall (fun k => is_ok (image_of k) = true) keys /\ l = fold_left put_image keys acc.
Proof.
  induction keys as [|k keys IH]; intros acc l.
  - cbn [gwy_images fold_left]. split; [intros H; apply ok_inj in H; auto|intros [_ ->]; reflexivity].
  - assert (E : gwy_images c (f_nx f) (f_ny f) (f_uxy f) (k :: keys) acc =
      rbind (image_of k) (fun o => gwy_images c (f_nx f) (f_ny f) (f_uxy f) keys (match o with Some (t, m) => gput acc t m | None => acc end))).
    { cbn [gwy_images]. unfold image_of. destruct (data_field c k) as [fv|]; [|reflexivity]. cbn [rbind].
      destruct (rbind (title_of c k) gtext) as [t|]; [|reflexivity]. cbn [rbind]. destruct (rbind (gitem fv (str "data")) gfloats) as [data|]; [|reflexivity]. cbn [rbind].
      destruct (rbind (unit_of fv "si_unit_xy") gtext) as [u|]; [|reflexivity]. cbn [rbind]. destruct (rbind (gitem fv (str "xres")) gint) as [w|]; [|reflexivity]. cbn [rbind].
      destruct (rbind (gitem fv (str "yres")) gint) as [hh|]; [|reflexivity]. cbn [rbind]. destruct (negb (w =? f_nx f) || negb (hh =? f_ny f) || negb (zs_eqb u (f_uxy f))); [reflexivity|].
      destruct (reshape_z (f_ny f) (f_nx f) data); reflexivity. }
    rewrite E. cbn [fold_left]. unfold put_image at 2. split.
    + intros H. apply rbind_ok in H as (o & H1 & H2). apply IH in H2 as [H2 ->]. rewrite H1. split; [constructor; [rewrite H1; reflexivity|exact H2]|]. destruct o as [[t m]|]; reflexivity.
    + intros [H ->]. inversion H as [|? ? H1 H2]; subst. destruct (image_of k) as [o|]; [|discriminate]. cbn [rbind]. apply IH. split; [exact H2|]. destruct o as [[t m]|]; reflexivity.
Qed.
Lemma title_then {B} k (g : pystr -> res B) (y : B) :
  (rbind (rbind (title_of c k) gtext) g = Ok y <-> exists t, inside c [path_key k "/data/title"] = Some (GStr t) /\ g t = Ok y).
Proof. unfold title_of. change (slash k "/data/title") with (path_key k "/data/title"). apply (item_then _ _ _ _ _ _ gtext_iff). Qed.
Lemma image_of_iff k o : image_of k = Ok o <->
  exists t data nx ny u, inside c [path_key k "/data/title"] = Some (GStr t) /\ in_field c k [str "data"] = Some (GFloats data) /\
    in_field c k [str "xres"] = Some (GInt nx) /\ in_field c k [str "yres"] = Some (GInt ny) /\ field_unit c k "si_unit_xy" = Some (GStr u) /\
    ((nx = f_nx f /\ ny = f_ny f /\ u = f_uxy f /\ length data = (Z.to_nat ny * Z.to_nat nx)%nat /\
      o = Some (t, grid (Z.to_nat (f_ny f)) (Z.to_nat (f_nx f)) (fun i j => nth (i * Z.to_nat (f_nx f) + j) data nan64)))
     \/ (~ (nx = f_nx f /\ ny = f_ny f /\ u = f_uxy f) /\ o = None)).
Proof.
  unfold image_of. split.
  - intros H. apply rbind_ok in H as (fv & Hf & H). apply data_field_iff in Hf. pose proof (fun p x => proj1 (in_field_iff c k fv p x Hf)) as IF.
    apply title_then in H as (t & T & H). apply (item_then _ _ _ _ _ _ gfloats_iff) in H as (data & D1 & H). apply unit_then in H as (u & D2 & H).
    apply (item_then _ _ _ _ _ _ gint_iff) in H as (nx & D3 & H). apply (item_then _ _ _ _ _ _ gint_iff) in H as (ny & D4 & H). apply IF in D1, D2, D3, D4.
    exists t, data, nx, ny, u. repeat (split; [assumption|]).
    destruct (Z.eqb_spec nx (f_nx f)) as [E1|E1]; cbn [negb orb] in H; [|apply ok_inj in H; right; split; [tauto|auto]].
    destruct (Z.eqb_spec ny (f_ny f)) as [E2|E2]; cbn [negb orb] in H; [|apply ok_inj in H; right; split; [tauto|auto]].
    destruct (zs_eqb u (f_uxy f)) eqn:E3; cbn [negb] in H.
    + left. apply zs_eqb_eq in E3. apply rmap_ok in H as (m & R & ->). unfold reshape_z in R.
      destruct (Z.ltb_spec (f_ny f) 0) as [|_]; [lia|]. destruct (Z.ltb_spec (f_nx f) 0) as [|_]; [lia|]. cbn [orb] in R. apply (reshape_inv nan64) in R as [R ->]. subst nx ny. auto.
    + apply ok_inj in H. right. split; [|auto]. intros (_ & _ & ->). rewrite zs_eqb_refl in E3. discriminate.
  - intros (t & data & nx & ny & u & T & D1 & D3 & D4 & D2 & H).
    assert (F : exists fv, in_field c k [] = Some fv).
    { clear - D1. unfold in_field in *. change [path_key k "/data"; str "GwyDataField"; str "data"] with ([path_key k "/data"; str "GwyDataField"] ++ [str "data"]) in D1. rewrite inside_app in D1.
      destruct (inside c [path_key k "/data"; str "GwyDataField"]); [eauto|discriminate]. }
    destruct F as (fv & Hf). rewrite (proj2 (data_field_iff _ _ _) Hf). cbn [rbind]. pose proof (fun p x => proj2 (in_field_iff c k fv p x Hf)) as IF. unfold field_unit in D2. apply IF in D1, D2, D3, D4.
    apply title_then. exists t. split; [exact T|]. apply (item_then _ _ _ _ _ _ gfloats_iff). exists data. split; [exact D1|]. apply unit_then. exists u. split; [exact D2|].
    apply (item_then _ _ _ _ _ _ gint_iff). exists nx. split; [exact D3|]. apply (item_then _ _ _ _ _ _ gint_iff). exists ny. split; [exact D4|].
    destruct H as [(-> & -> & -> & L & ->)|[N ->]].
    + rewrite !Z.eqb_refl, zs_eqb_refl. cbn [negb orb]. unfold reshape_z. destruct (Z.ltb_spec (f_ny f) 0) as [|_]; [lia|]. destruct (Z.ltb_spec (f_nx f) 0) as [|_]; [lia|]. cbn [orb].
      rewrite (reshape_ok nan64) by exact L. reflexivity.
    + destruct (Z.eqb_spec nx (f_nx f)) as [->|]; cbn [negb orb]; [|reflexivity]. destruct (Z.eqb_spec ny (f_ny f)) as [->|]; cbn [negb orb]; [|reflexivity].
      destruct (zs_eqb u (f_uxy f)) eqn:E3; cbn [negb]; [|reflexivity]. apply zs_eqb_eq in E3. exfalso. auto.
Qed.
Lemma gput_keys {A} (d : list (pystr * A)) k v x : In x (map fst (gput d k v)) <-> x = k \/ In x (map fst d).
Proof.
  induction d as [|[k' v'] d IH]; cbn [gput map fst].
  - split; [intros [<-|[]]; auto|intros [->|[]]; left; reflexivity].
  - destruct (zs_eqb k k') eqn:E.
    + apply zs_eqb_eq in E. subst k'. cbn [map fst In]. intuition.
    + cbn [map fst In]. rewrite IH. intuition.
Qed.
Lemma gput_nodup {A} (d : list (pystr * A)) k v : NoDup (map fst d) -> NoDup (map fst (gput d k v)).
Proof.
  induction d as [|[k' v'] d IH]; cbn [gput map fst]; intros H.
  - constructor; [intros []|constructor].
  - inversion H as [|? ? H1 H2]; subst. destruct (zs_eqb k k') eqn:E.
    + apply zs_eqb_eq in E. subst k'. cbn [map fst]. constructor; assumption.
    + cbn [map fst]. constructor; [|apply IH, H2]. rewrite gput_keys. intros [->|F]; [rewrite zs_eqb_refl in E; discriminate|contradiction].
Qed.
Lemma gput_in {A} (d : list (pystr * A)) k v x : In x (gput d k v) -> x = (k, v) \/ In x d.
Proof.
  induction d as [|[k' v'] d IH]; cbn [gput]; [intros [<-|[]]; auto|]. destruct (zs_eqb k k').
  - intros [<-|H]; [auto|right; right; exact H].
  - intros [<-|H]; [right; left; reflexivity|]. apply IH in H as [->|H]; [auto|right; right; exact H].
Qed.
Lemma fold_images keys : forall acc,
  (NoDup (map fst acc) -> NoDup (map fst (fold_left put_image keys acc))) /\
  (forall x, In x (fold_left put_image keys acc) -> In x acc \/ exists k, In k keys /\ image_of k = Ok (Some x)) /\
  (forall t, In t (map fst (fold_left put_image keys acc)) <-> In t (map fst acc) \/ exists k m, In k keys /\ image_of k = Ok (Some (t, m))).
Proof.
  induction keys as [|k keys IH]; intros acc; cbn [fold_left].
  - split; [auto|]. split; [auto|]. intros t. split; [auto|]. intros [H|(k & m & [] & _)]. exact H.
  - destruct (IH (put_image acc k)) as (H1 & H2 & H3). unfold put_image in *. split; [|split].
    + intros N. apply H1. destruct (image_of k) as [[[t m]|]|]; [apply gput_nodup, N|exact N|exact N].
    + intros x Hx'. apply H2 in Hx' as [Hx'|(k' & K & E)]; [|right; exists k'; split; [right; exact K|exact E]].
      destruct (image_of k) as [[[t m]|]|] eqn:E; try (left; exact Hx'). apply gput_in in Hx' as [->|Hx']; [|left; exact Hx']. right. exists k. split; [left; reflexivity|exact E].
    + intros t. rewrite H3. split.
      * intros [H|(k' & m & K & E)]; [|right; exists k', m; split; [right; exact K|exact E]].
        destruct (image_of k) as [[[t' m]|]|] eqn:E; try (left; exact H). apply gput_keys in H as [->|H]; [|left; exact H]. right. exists k, m. split; [left; reflexivity|exact E].
      * intros [H|(k' & m & [->|K] & E)].
        -- left. destruct (image_of k) as [[[t' m]|]|]; [apply gput_keys; right; exact H|exact H|exact H].
        -- left. rewrite E. apply gput_keys. left. reflexivity.
        -- right. exists k', m. auto.
Qed.
Lemma no_unit_ok k b : rbind (data_field c k) (fun f => rmap negb (ghas f (str "si_unit_z"))) = Ok b ->
  exists d, in_field c k [] = Some (GDict d) /\ (b = true <-> in_field c k [str "si_unit_z"] = None).
Proof.
  intros H. apply rbind_ok in H as (fv & H1 & H). apply data_field_iff in H1. apply rmap_ok in H as (has & H2 & ->). apply ghas_iff in H2 as [(d & ->) H2]. exists d. split; [exact H1|].
  assert (E : in_field c k [str "si_unit_z"] = inside (GDict d) [str "si_unit_z"]).
  { unfold in_field in *. change [path_key k "/data"; str "GwyDataField"; str "si_unit_z"] with ([path_key k "/data"; str "GwyDataField"] ++ [str "si_unit_z"]). rewrite inside_app, H1. reflexivity. }
  rewrite E. destruct has; cbn [negb].
  - split; [discriminate|]. intros F. exfalso. apply (proj1 H2); [reflexivity|exact F].
  - split; [|reflexivity]. intros _. destruct (inside (GDict d) [str "si_unit_z"]); [|reflexivity]. exfalso. assert (false = true) by (apply H2; discriminate). discriminate.
Qed.
Lemma image_layer k t m : numbered c k -> in_field c k [str "si_unit_z"] = None -> (image_of k = Ok (Some (t, m)) <-> layer_of c f k t m).
Proof.
  intros N U. rewrite image_of_iff. unfold layer_of. split.
  - intros (t' & data & nx & ny & u & T & D1 & D3 & D4 & D2 & [(-> & -> & -> & L & E)|[_ E]]); [|discriminate]. injection E as -> ->.
    repeat (split; [assumption|]). exists data. split; [exact D1|]. split; [exact L|]. apply grid_is. intros i j Hi Hj.
    apply nth_error_nth'. clear - L Hi Hj. unfold f64 in *. nia.
  - intros (_ & _ & T & D3 & D4 & D2 & data & D1 & L & Tb). exists t, data, (f_nx f), (f_ny f), (f_uxy f). repeat (split; [assumption|]). left. repeat (split; [auto; fail|]).
    f_equal. f_equal. eapply table_unique; [exact Tb|apply grid_is|].
    + intros i j Hi Hj. apply nth_error_nth'. clear - L Hi Hj. unfold f64 in *. nia.
    + cbv beta. intros i j x y E1 E2. congruence.
Qed.
Lemma image_readable k : is_ok (image_of k) = true <-> layer_readable c f k.
Proof.
  split.
  - intros H. destruct (image_of k) as [o|] eqn:E; [|discriminate]. apply image_of_iff in E as (t & data & nx & ny & u & T & D1 & D3 & D4 & D2 & E).
    exists t, data, nx, ny, u. repeat (split; [assumption|]). intros -> -> ->. destruct E as [(_ & _ & _ & L & _)|[N _]]; [exact L|tauto].
  - intros (t & data & nx & ny & u & T & D1 & D3 & D4 & D2 & E).
    assert (Dec : (nx = f_nx f /\ ny = f_ny f /\ u = f_uxy f) \/ ~ (nx = f_nx f /\ ny = f_ny f /\ u = f_uxy f)).
    { destruct (Z.eq_dec nx (f_nx f)); [|tauto]. destruct (Z.eq_dec ny (f_ny f)); [|tauto]. destruct (list_eq_dec Z.eq_dec u (f_uxy f)); tauto. }
    destruct Dec as [(-> & -> & ->)|N].
    + rewrite (proj2 (image_of_iff k (Some (t, grid (Z.to_nat (f_ny f)) (Z.to_nat (f_nx f)) (fun i j => nth (i * Z.to_nat (f_nx f) + j) data nan64))))); [reflexivity|]. exists t, data, (f_nx f), (f_ny f), (f_uxy f). repeat (split; [assumption|]). left. repeat (split; [reflexivity|]). split; [auto|reflexivity].
    + rewrite (proj2 (image_of_iff k None)); [reflexivity|]. exists t, data, nx, ny, u. repeat (split; [assumption|]). right. auto.
Qed.
End layers.

Lemma layers_iff lower order c k f s l : (forall l, Permutation (order l) l) -> heights_of lower c k f s ->
  gwy_layers lower order true c f = Ok l <->
  (forall n, numbered c n -> in_field c n [str "si_unit_z"] = None -> layer_readable c f n) /\
  exists keys, (forall n, In n keys <-> numbered c n /\ in_field c n [str "si_unit_z"] = None) /\ layer_keys order c = Ok (order (match c with GDict d => nodup pystr_dec (flat_map (fun '(k, _) => match layer_number k with Some n => [n] | None => [] end) d) | _ => [] end)) /\
    l = fold_left (put_image c f) keys [] /\ keys = List.filter (holds (fun k => rbind (data_field c k) (fun f => rmap negb (ghas f (str "si_unit_z")))))
      (order (match c with GDict d => nodup pystr_dec (flat_map (fun '(k, _) => match layer_number k with Some n => [n] | None => [] end) d) | _ => [] end)).
Proof.
  intros Ho Hh. pose proof Hh as (((d & ->) & U & _) & _ & _ & Px & Py & _). unfold gwy_layers. cbn [layer_keys rbind].
  set (all := order _). assert (K : NoDup all /\ forall n, In n all <-> numbered (GDict d) n) by (apply (layer_keys_spec order _ all Ho); reflexivity). clearbody all. destruct K as [_ K].
  set (g := fun k => rbind (data_field (GDict d) k) (fun f => rmap negb (ghas f (str "si_unit_z")))).
  assert (G : forall n, numbered (GDict d) n -> is_ok (g n) = true).
  { intros n Hn. destruct (U n Hn) as (fd & H & _). unfold g. rewrite (proj2 (data_field_iff _ _ _) H). reflexivity. }
  assert (Hk : forall n, In n (List.filter (holds g) all) <-> numbered (GDict d) n /\ in_field (GDict d) n [str "si_unit_z"] = None).
  { intros n. rewrite filter_In, K. split; intros [H1 H2]; (split; [exact H1|]); specialize (G n H1); unfold holds in *; destruct (g n) as [b|] eqn:E; try discriminate G;
      apply no_unit_ok in E as (_ & _ & E); apply E, H2. }
  assert (F : Forall (fun n => is_ok (g n) = true) all) by (apply Forall_forall; intros n Hn; apply G, K, Hn).
  rewrite (proj2 (rfilter_iff g all _) (conj F eq_refl)). cbn [rbind]. rewrite (images_iff (GDict d) f). split.
  - intros [H1 ->]. split.
    + intros n N1 N2. apply (image_readable (GDict d) f Px Py). rewrite Forall_forall in H1. apply H1, Hk. auto.
    + exists (List.filter (holds g) all). repeat split; try reflexivity; apply Hk; assumption.
  - intros [H1 (keys & _ & _ & -> & ->)]. split; [|reflexivity]. apply Forall_forall. intros n Hn. apply (image_readable (GDict d) f Px Py), H1; apply Hk, Hn.
Qed.
(** C81: with image layers, reading succeeds exactly if, besides, every channel without a z unit can be read; every layer is such a
    channel of the size and lateral unit of the heights, and every such channel is a layer unless another has its title *)
Theorem C81_gwy_layers : forall lower order tree (s : raw) l, (forall l, Permutation (order l) l) -> gwy_surface lower order true tree = Ok (s, l) ->
  exists c k f, inside tree [str "GwyContainer"] = Some c /\ heights_of lower c k f s /\ NoDup (map fst l) /\
    (forall t m, In (t, m) l -> exists n, layer_of c f n t m) /\ (forall n t m, layer_of c f n t m -> In t (map fst l)) /\
    ((forall n n' t m m', layer_of c f n t m -> layer_of c f n' t m' -> n = n') -> forall t m, In (t, m) l <-> exists n, layer_of c f n t m).
Proof.
  intros lower order tree s l Ho H. apply (surface_iff _ _ _ _ _ _ Ho) in H as (c & k & f & H1 & H2 & H3). exists c, k, f. split; [exact H1|]. split; [exact H2|].
  pose proof H2 as (_ & _ & _ & Px & Py & _). apply (layers_iff lower order c k f s l Ho H2) in H3 as (_ & keys & Hk & _ & -> & _).
  destruct (fold_images c f keys []) as (F1 & F2 & F3).
  assert (G1 : forall t m, In (t, m) (fold_left (put_image c f) keys []) -> exists n, layer_of c f n t m).
  { intros t m Hin. apply F2 in Hin as [[]|(n & K & E)]. exists n. apply Hk in K as [K1 K2]. apply (image_layer c f Px Py); assumption. }
  assert (G2 : forall n t m, layer_of c f n t m -> In t (map fst (fold_left (put_image c f) keys []))).
  { intros n t m L. apply F3. right. exists n, m. pose proof L as (L1 & L2 & _). split; [apply Hk; auto|]. apply (image_layer c f Px Py); assumption. }
  split; [apply F1; constructor|]. split; [exact G1|]. split; [exact G2|]. intros D t m. split; [apply G1|]. intros (n & L). pose proof (G2 _ _ _ L) as Hin.
  apply in_map_iff in Hin as ((t' & m') & E & Hin). cbn in E. subst t'. destruct (G1 _ _ Hin) as (n' & L'). rewrite (D _ _ _ _ _ L L') in L.
  pose proof L as (L1 & L2 & _). apply (image_layer c f Px Py) in L; [|assumption|assumption]. apply (image_layer c f Px Py) in L'; [|assumption|assumption]. assert (m = m') by congruence. subst m'. exact Hin.
Qed.
Theorem C81_gwy_layers_reads : forall lower order tree (s : raw), (forall l, Permutation (order l) l) ->
  ((exists l, gwy_surface lower order true tree = Ok (s, l)) <->
   exists c k f, inside tree [str "GwyContainer"] = Some c /\ heights_of lower c k f s /\
     forall n, numbered c n -> in_field c n [str "si_unit_z"] = None -> layer_readable c f n).
Proof.
  intros lower order tree s Ho. split.
  - intros (l & H). apply (surface_iff _ _ _ _ _ _ Ho) in H as (c & k & f & H1 & H2 & H3). exists c, k, f. split; [exact H1|]. split; [exact H2|].
    apply (layers_iff lower order c k f s l Ho H2) in H3 as [H3 _]. exact H3.
  - intros (c & k & f & H1 & H2 & H3).
    assert (E : is_ok (gwy_layers lower order true c f) = true).
    { pose proof H2 as (((d & ->) & U & _) & _ & _ & Px & Py & _). unfold gwy_layers. cbn [layer_keys rbind].
      set (all := order _). assert (K : NoDup all /\ forall n, In n all <-> numbered (GDict d) n) by (apply (layer_keys_spec order _ all Ho); reflexivity). clearbody all. destruct K as [_ K].
      set (g := fun k => rbind (data_field (GDict d) k) (fun f => rmap negb (ghas f (str "si_unit_z")))).
      assert (G : forall n, numbered (GDict d) n -> is_ok (g n) = true).
      { intros n Hn. destruct (U n Hn) as (fd & H & _). unfold g. rewrite (proj2 (data_field_iff _ _ _) H). reflexivity. }
      assert (F : Forall (fun n => is_ok (g n) = true) all) by (apply Forall_forall; intros n Hn; apply G, K, Hn).
      rewrite (proj2 (rfilter_iff g all _) (conj F eq_refl)). cbn [rbind]. rewrite (proj2 (images_iff (GDict d) f (List.filter (holds g) all) [] (fold_left (put_image (GDict d) f) (List.filter (holds g) all) []))); [reflexivity|]. split; [|reflexivity].
      apply Forall_forall. intros n Hn. apply filter_In in Hn as [Hn Hg]. apply K in Hn. apply (image_readable (GDict d) f Px Py), H3; [exact Hn|].
      unfold holds in Hg. destruct (g n) as [b|] eqn:E; [|discriminate]. apply no_unit_ok in E as (_ & _ & E). apply E, Hg. }
    destruct (gwy_layers lower order true c f) as [l|] eqn:L; [|discriminate]. exists l. apply (surface_iff _ _ _ _ _ _ Ho). exists c, k, f. auto.
Qed.
(** C81, partial: the image layers do not depend on the order in which Python walks through a set if no two of them have the same
    title; if two have, they do (see C81_gwy_layers_order_refuted) *)
Theorem C81_gwy_layers_any_order_partial : forall lower order order' tree (s s' : raw) l l', (forall l, Permutation (order l) l) -> (forall l, Permutation (order' l) l) ->
  gwy_surface lower order true tree = Ok (s, l) -> gwy_surface lower order' true tree = Ok (s', l') ->
  s = s' /\ ((forall c f n n' t m m', inside tree [str "GwyContainer"] = Some c -> layer_of c f n t m -> layer_of c f n' t m' -> n = n') -> Permutation l l').
Proof.
  intros lower order order' tree s s' l l' Ho Ho' H H'.
  assert (Es : s = s').
  { apply (surface_iff _ _ _ _ _ _ Ho) in H as (c & k & f & H1 & H2 & _). apply (surface_iff _ _ _ _ _ _ Ho') in H' as (c' & k' & f' & H1' & H2' & _).
    assert (A : gwy_surface lower order false tree = Ok (s, [])) by (apply (surface_iff _ _ _ _ _ _ Ho); exists c, k, f; auto).
    assert (A' : gwy_surface lower order false tree = Ok (s', [])) by (apply (surface_iff _ _ _ _ _ _ Ho); exists c', k', f'; auto). congruence. }
  split; [exact Es|]. subst s'. intros D.
  destruct (C81_gwy_layers _ _ _ _ _ Ho H) as (c & k & f & T & Hh & N & _ & _ & X). destruct (C81_gwy_layers _ _ _ _ _ Ho' H') as (c' & k' & f' & T' & Hh' & N' & _ & _ & X').
  assert (c' = c) by congruence. subst c'. assert (k' = k) by (apply (chosen_unique lower c); [apply Hh'|apply Hh]). subst k'.
  assert (f' = f).
  { destruct Hh as (_ & _ & (A1 & A2 & A3 & A4 & A5 & A6) & _). destruct Hh' as (_ & _ & (B1 & B2 & B3 & B4 & B5 & B6) & _). destruct f, f'. cbn in *. congruence. }
  subst f'. apply NoDup_Permutation; [exact (NoDup_map_inv _ _ N)|exact (NoDup_map_inv _ _ N')|]. intros [t m].
  rewrite (X (fun n n' t m m' => D c f n n' t m m' T)), (X' (fun n n' t m m' => D c f n n' t m m' T)). reflexivity.
Qed.
