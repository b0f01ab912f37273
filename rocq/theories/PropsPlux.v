(** C84: PLUX files. *)
From Coq Require Import String Ascii ZArith Lia Bool.
From Coq Require Import List.
From Flocq Require Import IEEE754.BinarySingleNaN IEEE754.Binary IEEE754.Bits.
From Verif Require Import Base ModelBytes ModelUnits ModelSur ModelFormats ModelReaders ModelGwy ModelZip SpecReaders SpecZip ProofBytes PropsMagic PropsLayout ProofReaders ProofZip ProofFlat PropsGwySurface ProofGwySurface PropsX3p.
Import ListNotations.
Local Open Scope list_scope.
Local Open Scope Z_scope.

(** ** The INFO section *)
Lemma strip_ends t s : strip t = s <-> ends_of t s.
Proof.
  unfold ends_of. split.
  - intros H. destruct s as [|c s]; [right; split; [apply strip_nil, H|reflexivity]|left; apply strip_trimmed; split; [exact H|discriminate]].
  - intros [H|[H ->]]; [apply strip_trimmed in H; tauto|apply strip_nil, H].
Qed.
Lemma stripped_iff e tag s : stripped e tag = Ok s <-> exists t, says e [tag] t /\ ends_of t s.
Proof.
  unfold stripped. split.
  - intros H. apply rbind_ok in H as (o & H1 & H2). apply rmap_ok in H2 as (t & H2 & ->). apply the_iff in H2. subst o. apply text_iff in H1. exists t. split; [exact H1|]. apply strip_ends. reflexivity.
  - intros (t & H1 & H2). apply text_iff in H1. apply strip_ends in H2. rewrite H1. cbn. rewrite H2. reflexivity.
Qed.
Lemma says_unique e p x y : says e p x -> says e p y -> x = y.
Proof. intros (c & c1 & c2) (d & d1 & d2). pose proof (first_unique _ _ _ _ c1 d1). congruence. Qed.
Lemma tags_iff n : existsb (zs_eqb n) plux_tags = true <-> In n (map str plux_names).
Proof.
  rewrite existsb_exists. split.
  - intros (x & H & E). apply zs_eqb_eq in E. subst x. exact H.
  - intros H. exists n. split; [exact H|apply zs_eqb_refl].
Qed.
Definition item_readable (i : elem) : Prop := (exists r, etag i = str "ITEM_" ++ r) ->
  exists t n, says i ["NAME"%string] t /\ ends_of t n /\ (In n (map str plux_names) -> exists v, says i ["VALUE"%string] v).
Lemma info_ok py : forall items m, (exists m', plux_info py items m = Ok m') <-> Forall item_readable items.
Proof.
  induction items as [|i items IH]; intros m; cbn [plux_info]; [split; [constructor|eauto]|].
  destruct (prefix_of (str "ITEM_") (etag i)) eqn:P.
  - apply prefix_of_iff in P. split.
    + intros (m' & H). apply rbind_ok in H as (n & H1 & H2). apply stripped_iff in H1 as (t & T1 & T2).
      destruct (existsb (zs_eqb n) plux_tags) eqn:E.
      * apply rbind_ok in H2 as (v & H2 & H3). constructor; [|apply (IH (gput m (to_lower py n) (MText v))); eauto].
        intros _. exists t, n. split; [exact T1|]. split; [exact T2|]. intros _. apply stripped_iff in H2 as (v' & H2 & _). eauto.
      * constructor; [|apply (IH m); eauto]. intros _. exists t, n. split; [exact T1|]. split; [exact T2|]. intros F. apply tags_iff in F. congruence.
    + intros F. inversion F as [|? ? F1 F2]; subst. destruct (F1 P) as (t & n & T1 & T2 & T3). rewrite (proj2 (stripped_iff i "NAME" n) (ex_intro _ t (conj T1 T2))). cbn [rbind].
      destruct (existsb (zs_eqb n) plux_tags) eqn:E; [|apply IH, F2]. apply tags_iff in E. destruct (T3 E) as (v & V).
      rewrite (proj2 (stripped_iff i "VALUE" (strip v)) (ex_intro _ v (conj V (proj1 (strip_ends v _) eq_refl)))). cbn [rbind]. apply IH, F2.
  - rewrite IH. split; [|intros F; inversion F; assumption]. intros F. constructor; [|exact F]. intros G. apply prefix_of_iff in G. congruence.
Qed.
Definition info_of py (root : elem) (m : metadata) : res metadata :=
  match efind root ["INFO"%string] with Some info => plux_info py (ekids info) m | None => Ok m end.
Lemma info_of_ok py root m : (exists m', info_of py root m = Ok m') <-> info_readable root.
Proof.
  unfold info_of, info_readable. destruct (efind root ["INFO"%string]) as [info|] eqn:E.
  - rewrite info_ok, Forall_forall. apply find_iff in E. split.
    + intros H info' i F. rewrite (first_unique _ _ _ _ F E). apply H.
    + intros H i Hi. exact (H info i E Hi).
  - split; [|eauto]. intros _ info' i F. apply find_iff in F. congruence.
Qed.

(** ** The heights and the picture *)
Lemma plux_table ny nx (b : bytes) m : 0 <= nx -> 0 <= ny ->
  ((if Nat.ltb (length b) (Z.to_nat (nx * ny) * 4) then Err ValueError else
    rbind (frombuffer 4 (firstn (Z.to_nat (nx * ny) * 4) b)) (fun l => reshape (Z.to_nat ny) (Z.to_nat nx) (map (fun c => f64_of_f32 (item_f32 c)) l))) = Ok m <->
   (4 * (Z.to_nat ny * Z.to_nat nx) <= length b)%nat /\
   table_is m (Z.to_nat ny) (Z.to_nat nx) (fun i j x => x = single_at b (4 * (i * Z.to_nat nx + j)))).
Proof.
  intros Hx Hy. set (c := firstn (Z.to_nat (nx * ny) * 4) b).
  assert (N : Z.to_nat (nx * ny) = (Z.to_nat ny * Z.to_nat nx)%nat) by (rewrite Z2Nat.inj_mul by lia; lia).
  assert (R : forall l, reshape (Z.to_nat ny) (Z.to_nat nx) (map (fun c => f64_of_f32 (item_f32 c)) l) = reshape_z ny nx (map (fun c => f64_of_f32 (item_f32 c)) l)).
  { intros l. unfold reshape_z. replace ((ny <? 0) || (nx <? 0)) with false by (symmetry; apply orb_false_iff; split; apply Z.ltb_ge; lia). reflexivity. }
  assert (Q : rbind (frombuffer 4 c) (fun l => reshape (Z.to_nat ny) (Z.to_nat nx) (map (fun c => f64_of_f32 (item_f32 c)) l)) =
              rbind (rmap (map (fun c => f64_of_f32 (item_f32 c))) (frombuffer 4 c)) (reshape_z ny nx)) by (destruct (frombuffer 4 c); cbn; auto).
  rewrite Q. destruct (Nat.ltb_spec (length b) (Z.to_nat (nx * ny) * 4)) as [L|L].
  - split; [discriminate|]. intros [F _]. lia.
  - assert (Lc : length c = (4 * (Z.to_nat ny * Z.to_nat nx))%nat) by (unfold c; rewrite firstn_length; lia).
    rewrite (table_of _ 4 ny nx c m) by lia.
    assert (V : forall i j x, (i < Z.to_nat ny)%nat -> (j < Z.to_nat nx)%nat ->
      x = f64_of_f32 (item_f32 (slice (4 * (i * Z.to_nat nx + j)) 4 c)) <-> x = single_at b (4 * (i * Z.to_nat nx + j))).
    { intros i j x Hi Hj. assert (K : (i * Z.to_nat nx + j + 1 <= Z.to_nat ny * Z.to_nat nx)%nat) by nia.
      assert (Es : slice (4 * (i * Z.to_nat nx + j)) 4 c = slice (4 * (i * Z.to_nat nx + j)) 4 b).
      { unfold slice, c. rewrite skipn_firstn_comm, firstn_firstn. f_equal. lia. }
      unfold item_f32. rewrite Es, unle_slice by lia. reflexivity. }
    rewrite (table_ext m _ _ _ _ V). split; [intros (_ & _ & _ & T); split; [lia|exact T]|intros [_ T]; auto].
Qed.
Lemma plux_image_iff a ny nx l : 0 <= nx -> 0 <= ny ->
  ((exists img, amember a (str "LAYER_0.stack.raw") = Ok img /\ plux_image ny nx img = Ok l) <-> plux_picture a nx ny l).
Proof.
  intros Hx Hy. unfold plux_picture. set (X := Z.to_nat nx). set (Y := Z.to_nat ny).
  assert (G : forall img, length img = (3 * (Y * X))%nat -> reshape3 Y X 3 img = Ok (grid Y X (fun i j => [byte img (3 * (i * X + j) + 0); byte img (3 * (i * X + j) + 1); byte img (3 * (i * X + j) + 2)]))).
  { intros img L. destruct (reshape3 Y X 3 img) as [m|] eqn:E.
    - apply (reshape3_inv 0) in E as [_ ->]. f_equal. apply grid_ext'. intros i j _ _. cbn [seq map]. unfold byte. rewrite (Nat.mul_comm (i * X + j) 3). reflexivity.
    - exfalso. unfold reshape3 in E. rewrite (reshape_ok 0) in E by lia. cbn [rbind] in E. rewrite (reshape_ok []) in E; [discriminate|]. unfold grid. rewrite map_length, seq_length. reflexivity. }
  assert (I : forall img, length img = (3 * (Y * X))%nat ->
    let at_ i j k := byte img (3 * (i * X + j) + k) in
    let grey := forall i j, (i < Y)%nat -> (j < X)%nat -> at_ i j 0%nat = at_ i j 1%nat /\ at_ i j 0%nat = at_ i j 2%nat in
    plux_image ny nx img = Ok l <-> (grey /\ l = [("Grayscale"%string, grid Y X (fun i j => [at_ i j 0%nat]))]) \/ (~ grey /\ l = [("RGB"%string, grid Y X (fun i j => [at_ i j 0%nat; at_ i j 1%nat; at_ i j 2%nat]))])).
  { intros img L at_ grey. unfold plux_image. fold X Y. replace ((ny <? 0) || (nx <? 0)) with false by (symmetry; apply orb_false_iff; split; apply Z.ltb_ge; lia).
    rewrite (G img L). cbn [rbind]. destruct (forallb _ (grid Y X _)) eqn:F.
    - assert (Gr : grey).
      { intros i j Hi Hj. rewrite forallb_grid in F. specialize (F i j Hi Hj). cbn [nth] in F. apply andb_prop in F as [F1 F2]. apply Z.eqb_eq in F1, F2. split; assumption. }
      rewrite grid_map. cbn [nth]. split; [intros H; apply ok_inj in H; left; split; [exact Gr|symmetry; exact H]|]. intros [[_ ->]|[Ng _]]; [reflexivity|contradiction].
    - assert (Gr : ~ grey).
      { intros Gr. apply grid_false in F as (i & j & Hi & Hj & F). cbn [nth] in F. destruct (Gr i j Hi Hj) as [G1 G2]. unfold at_ in G1, G2. rewrite <- G1, <- G2, Z.eqb_refl in F. discriminate. }
      split; [intros H; apply ok_inj in H; right; split; [exact Gr|symmetry; exact H]|]. intros [[Ng _]|[_ ->]]; [contradiction|reflexivity]. }
  split.
  - intros (img & H1 & H2). apply member_iff in H1. exists img. split; [exact H1|].
    assert (L : length img = (3 * (Y * X))%nat).
    { unfold plux_image in H2. destruct ((ny <? 0) || (nx <? 0)); [discriminate|]. apply rbind_ok in H2 as (m & H2 & _). apply (reshape3_inv 0) in H2 as [L _]. unfold X, Y. lia. }
    split; [exact L|]. apply (I img L), H2.
  - intros (img & H1 & L & H2). apply member_iff in H1. exists img. split; [exact H1|]. apply (I img L), H2.
Qed.

(** ** The whole reader *)
Lemma plux_iff py en images (b : bytes) p : read_plux py en images b = Ok p <->
  exists a nx ny root dt d, plux_surface py en b a nx ny (cells (pdata p)) (pstep_x p) (pstep_y p) /\ writeable (pdata p) = false /\
    plux_document py en a root /\ says root ["GENERAL"; "DATE"]%string dt /\ to_date py dt = Ok d /\ info_of py root [(str "timestamp", MDate d)] = Ok (pmeta p) /\
    (if images then plux_picture a nx ny (pimages p) else pimages p = []).
Proof.
  unfold read_plux. split.
  - intros H. apply rbind_ok in H as (a & Ha & H). apply rbind_ok in H as (hs & H1 & H). apply rbind_ok in H as (io & H2 & H).
    apply rbind_ok in H as (xml & H3 & H). apply rbind_ok in H3 as (xf & H3 & H3'). apply rbind_ok in H as (root & H4 & H). apply rbind_ok in H as (d & H5 & H).
    apply rbind_ok in H as (m & H6 & H). apply rbind_ok in H as (nx & H7 & H). apply rbind_ok in H as (ny & H8 & H). apply rbind_ok in H as (sx & H9 & H). apply rbind_ok in H as (sy & H10 & H).
    destruct ((nx <? 0) || (ny <? 0)) eqn:E; [discriminate|]. apply orb_false_iff in E as [E1 E2]. apply Z.ltb_ge in E1, E2.
    assert (T : exists data, (if Nat.ltb (length hs) (Z.to_nat (nx * ny) * 4) then Err ValueError else
       rbind (frombuffer 4 (firstn (Z.to_nat (nx * ny) * 4) hs)) (fun l => reshape (Z.to_nat ny) (Z.to_nat nx) (map (fun c => f64_of_f32 (item_f32 c)) l))) = Ok data /\
       rbind (if images then match io with Some i => plux_image ny nx i | None => Err UnboundLocalError end else Ok []) (fun layers =>
         Ok {| pdata := Array data false; pstep_x := sx; pstep_y := sy; pmeta := m; pimages := layers |}) = Ok p).
    { cbv zeta in H. destruct (Nat.ltb (length hs) (Z.to_nat (nx * ny) * 4)); [discriminate|]. apply rbind_ok in H as (data & G1 & G2). eauto. }
    clear H. destruct T as (data & T & H). apply (plux_table ny nx hs data E1 E2) in T as [L T]. apply rbind_ok in H as (layers & I1 & H). apply ok_inj in H. subst p. cbn [pdata pstep_x pstep_y pmeta pimages cells writeable].
    change (given (to_date py)) with (fun o => match o with Some s => to_date py s | None => Err TypeError end) in *.
    assert (H5' : rbind (text_at root ["GENERAL"; "DATE"]%string) (given (to_date py)) = Ok d) by exact H5. apply given_iff in H5' as (dt & D1 & D2).
    apply given_iff in H7 as (snx & X1 & X2). apply given_iff in H8 as (sny & Y1 & Y2). apply given_iff in H9 as (tx & X3 & X4). apply given_iff in H10 as (ty & Y3 & Y4).
    assert (Doc : plux_document py en a root) by (exists xf, xml; split; [apply member_iff, H3|auto]).
    assert (If : info_of py root [(str "timestamp", MDate d)] = Ok m) by exact H6.
    exists a, nx, ny, root, dt, d. split; [|split; [reflexivity|split; [exact Doc|split; [exact D1|split; [exact D2|split; [exact If|]]]]]].
    + split; [exact Ha|]. exists hs, root. split; [apply member_iff, H1|]. split; [exact Doc|]. split; [exists snx, sny, tx, ty, dt, d; auto 12|]. split; [apply (info_of_ok py root [(str "timestamp", MDate d)]); eauto|]. auto.
    + destruct images; [|apply ok_inj in I1; symmetry; exact I1]. destruct io as [img|]; [|discriminate]. apply plux_image_iff; [exact E1|exact E2|]. exists img. split; [|exact I1].
      cbn [andb] in H2. destruct (has a "LAYER_0.stack.raw"); [|discriminate]. apply rmap_ok in H2 as (x & H2 & Ex). congruence.
  - intros (a & nx & ny & root & dt & d & S & W & Doc & D1 & D2 & If & P). destruct S as (Ha & hs & root' & H1 & Doc' & Sy & Rd & E1 & E2 & L & T).
    destruct Doc as (xf & xml & F1 & F2 & F3). destruct Doc' as (xf' & xml' & F1' & F2' & F3'). pose proof (holds_unique _ _ _ _ F1 F1'). subst xf'. assert (xml' = xml) by congruence. subst xml'. assert (root' = root) by congruence. subst root'.
    destruct Sy as (snx & sny & tx & ty & dt' & d' & _ & _ & X1 & X2 & Y1 & Y2 & X3 & X4 & Y3 & Y4).
    rewrite Ha. cbn [rbind]. rewrite (proj2 (member_iff a _ hs) H1). cbn [rbind].
    assert (IO : exists io, (if images && has a "LAYER_0.stack.raw" then rmap Some (amember a (str "LAYER_0.stack.raw")) else Ok None) = Ok io /\
       (if images then match io with Some i => plux_image ny nx i | None => Err UnboundLocalError end else Ok []) = Ok (pimages p)).
    { destruct images; cbn [andb]; [|exists None; rewrite P; auto]. apply (plux_image_iff a ny nx _ E1 E2) in P as (img & P1 & P2).
      rewrite (proj2 (has_iff a "LAYER_0.stack.raw") (ex_intro _ img (proj1 (member_iff a _ img) P1))). rewrite P1. exists (Some img). auto. }
    destruct IO as (io & I1 & I2). rewrite I1. cbn [rbind]. rewrite (proj2 (member_iff a _ xf) F1). cbn [rbind]. rewrite F2. cbn [rbind]. rewrite F3. cbn [rbind].
    apply text_iff in D1. rewrite D1. cbn [rbind]. rewrite D2. cbn [rbind]. match goal with |- rbind ?x _ = _ => replace x with (Ok (pmeta p)) by (symmetry; exact If) end. cbn [rbind].
    rewrite (proj2 (given_iff root ["GENERAL"; "IMAGE_SIZE_X"]%string (to_int py) nx) (ex_intro _ _ (conj X1 X2))). cbn [rbind].
    rewrite (proj2 (given_iff root ["GENERAL"; "IMAGE_SIZE_Y"]%string (to_int py) ny) (ex_intro _ _ (conj Y1 Y2))). cbn [rbind].
    rewrite (proj2 (given_iff root ["GENERAL"; "FOV_X"]%string (to_float py) _) (ex_intro _ _ (conj X3 X4))). cbn [rbind].
    rewrite (proj2 (given_iff root ["GENERAL"; "FOV_Y"]%string (to_float py) _) (ex_intro _ _ (conj Y3 Y4))). cbn [rbind].
    replace ((nx <? 0) || (ny <? 0)) with false by (symmetry; apply orb_false_iff; split; apply Z.ltb_ge; lia). cbv zeta.
    pose proof (proj2 (plux_table ny nx hs _ E1 E2) (conj L T)) as Tb. destruct (Nat.ltb (length hs) (Z.to_nat (nx * ny) * 4)); [discriminate|]. rewrite Tb. cbn [rbind]. rewrite I2. cbn [rbind].
    destruct p as [[dd w] x y m im]. cbn in W |- *. rewrite W. reflexivity.
Qed.
(** C84: which files are read, and what the surface is then *)
Theorem C84_plux : forall py en (b : bytes) (rows : list (list f64)) sx sy,
  (exists p, read_plux py en false b = Ok p /\ cells (pdata p) = rows /\ pstep_x p = sx /\ pstep_y p = sy) <-> exists a nx ny, plux_surface py en b a nx ny rows sx sy.
Proof.
  intros py en b rows sx sy. split.
  - intros (p & H & <- & <- & <-). apply plux_iff in H as (a & nx & ny & _ & _ & _ & H & _). eauto.
  - intros (a & nx & ny & H). pose proof H as (_ & hs & root & _ & Doc & Sy & Rd & _). destruct Sy as (_ & _ & _ & _ & dt & d & D1 & D2 & _).
    destruct (proj2 (info_of_ok py root [(str "timestamp", MDate d)]) Rd) as (m & M).
    exists {| pdata := Array rows false; pstep_x := sx; pstep_y := sy; pmeta := m; pimages := [] |}. split; [|auto]. apply plux_iff. exists a, nx, ny, root, dt, d. cbn. auto 10.
Qed.
(** C84: with the images: exactly if the archive has the picture, and with the same heights *)
Theorem C84_plux_images : forall py en (b : bytes) (rows : list (list f64)) sx sy l,
  (exists p, read_plux py en true b = Ok p /\ cells (pdata p) = rows /\ pstep_x p = sx /\ pstep_y p = sy /\ pimages p = l) <->
  exists a nx ny, plux_surface py en b a nx ny rows sx sy /\ plux_picture a nx ny l.
Proof.
  intros py en b rows sx sy l. split.
  - intros (p & H & <- & <- & <- & <-). apply plux_iff in H as (a & nx & ny & _ & _ & _ & H & _ & _ & _ & _ & _ & P). eauto.
  - intros (a & nx & ny & H & P). pose proof H as (_ & hs & root & _ & Doc & Sy & Rd & _). destruct Sy as (_ & _ & _ & _ & dt & d & D1 & D2 & _).
    destruct (proj2 (info_of_ok py root [(str "timestamp", MDate d)]) Rd) as (m & M).
    exists {| pdata := Array rows false; pstep_x := sx; pstep_y := sy; pmeta := m; pimages := l |}. split; [|auto]. apply plux_iff. exists a, nx, ny, root, dt, d. cbn. auto 10.
Qed.

(** ** The metadata *)
Lemma info_get py : lowers py -> forall items m m', plux_info py items m = Ok m' -> forall k,
  (forall n key, In (n, key) plux_keys -> k <> str key) -> gget m' k = gget m k.
Proof.
  intros Lo. induction items as [|i items IH]; intros m m' H k K; cbn [plux_info] in H; [apply ok_inj in H; congruence|].
  destruct (prefix_of _ _); [|eapply IH; eassumption]. apply rbind_ok in H as (n & H1 & H). destruct (existsb (zs_eqb n) plux_tags) eqn:E; [|eapply IH; eassumption].
  apply rbind_ok in H as (v & H2 & H). rewrite (IH _ _ H k K), gget_gput. apply tags_iff in E. apply in_map_iff in E as (n0 & <- & E).
  assert (X : exists key, In (n0, key) plux_keys).
  { cbn in E. repeat (destruct E as [<-|E]; [eexists; cbn; eauto 8|]). destruct E. }
  destruct X as (key & X). rewrite (Lo _ _ X). destruct (zs_eqb k (str key)) eqn:Z; [|reflexivity]. apply zs_eqb_eq in Z. exfalso. exact (K _ _ X Z).
Qed.
Lemma keys_inj n n' key key' : In (n, key) plux_keys -> In (n', key') plux_keys -> str key = str key' -> n = n' /\ key = key'.
Proof.
  intros H H' E. cbn in H, H'. repeat (destruct H as [H|H]; [injection H as <- <-; repeat (destruct H' as [H'|H']; [injection H' as <- <-; first [split; reflexivity|discriminate E]|]); destruct H'|]). destruct H.
Qed.
Lemma keys_fun n key key' : In (n, key) plux_keys -> In (n, key') plux_keys -> key = key'.
Proof.
  intros H H'. assert (F : forall l : list (string * string), NoDup (map fst l) -> In (n, key) l -> In (n, key') l -> key = key').
  { induction l as [|[a b] l IH]; cbn [map fst In]; intros N I1 I2; [destruct I1|]. inversion N as [|? ? N1 N2]; subst. destruct I1 as [I1|I1], I2 as [I2|I2].
    - congruence.
    - injection I1 as -> ->. exfalso. apply N1. apply (in_map fst) in I2. exact I2.
    - injection I2 as -> ->. exfalso. apply N1. apply (in_map fst) in I1. exact I1.
    - auto. }
  apply (F plux_keys); [|exact H|exact H']. cbn. repeat constructor; cbn; intuition discriminate.
Qed.
Lemma keys_names n key : In (n, key) plux_keys -> In n plux_names.
Proof. intros H. cbn in H. repeat (destruct H as [H|H]; [injection H as <- _; cbn; tauto|]). destruct H. Qed.
Lemma names_inj n n' : In n plux_names -> In n' plux_names -> str n = str n' -> n = n'.
Proof.
  intros H H' E. cbn in H, H'. repeat (destruct H as [<-|H]; [repeat (destruct H' as [<-|H']; [first [reflexivity|discriminate E]|]); destruct H'|]). destruct H.
Qed.
Lemma stripped_name i n : item_named i n <-> prefix_of (str "ITEM_") (etag i) = true /\ stripped i "NAME" = Ok (str n).
Proof. unfold item_named. rewrite prefix_of_iff, stripped_iff. reflexivity. Qed.
Definition last_item (items : list elem) (n : string) (s : pystr) : Prop :=
  exists before i after t, items = before ++ i :: after /\ item_named i n /\ (forall i', In i' after -> ~ item_named i' n) /\ says i ["VALUE"%string] t /\ ends_of t s.
Lemma info_key py : lowers py -> forall items m m', plux_info py items m = Ok m' -> forall n key, In (n, key) plux_keys ->
  (forall s, last_item items n s -> gget m' (str key) = Some (MText s)) /\ ((forall i, In i items -> ~ item_named i n) -> gget m' (str key) = gget m (str key)).
Proof.
  intros Lo items. induction items as [|i items IH] using rev_ind; intros m m' H n key Hk.
  - cbn in H. apply ok_inj in H. subst m'. split; [|reflexivity]. intros s (be & i & af & t & E & _). destruct be; discriminate.
  - assert (Hs : exists m1, plux_info py items m = Ok m1 /\ plux_info py [i] m1 = Ok m').
    { clear IH Hk. revert m H. induction items as [|x items IHi]; intros m H; [exists m; auto|]. cbn [plux_info app] in H |- *. destruct (prefix_of (str "ITEM_") (etag x)); [|apply IHi, H].
      apply rbind_ok in H as (nm & H1 & H). rewrite H1. cbn [rbind]. destruct (existsb (zs_eqb nm) plux_tags); [|apply IHi, H]. apply rbind_ok in H as (v & H2 & H). rewrite H2. cbn [rbind]. apply IHi, H. }
    destruct Hs as (m1 & H1 & H2). destruct (IH m m1 H1 n key Hk) as [A B].
    assert (C : (item_named i n -> exists v, stripped i "VALUE" = Ok v /\ gget m' (str key) = Some (MText v)) /\ (~ item_named i n -> gget m' (str key) = gget m1 (str key))).
    { rewrite stripped_name. cbn [plux_info] in H2. destruct (prefix_of (str "ITEM_") (etag i)).
      - apply rbind_ok in H2 as (nm & N1 & H2). destruct (existsb (zs_eqb nm) plux_tags) eqn:E.
        + apply rbind_ok in H2 as (v & H2 & H3). apply ok_inj in H3. subst m'. apply tags_iff in E. apply in_map_iff in E as (n0 & <- & E).
          assert (X : exists key0, In (n0, key0) plux_keys) by (clear - E; cbn in E; repeat (destruct E as [<-|E]; [eexists; cbn; eauto 8|]); destruct E). destruct X as (key0 & X). rewrite (Lo _ _ X), gget_gput. split.
          * intros [_ F]. rewrite N1 in F. apply ok_inj in F. assert (n0 = n) by (apply (names_inj _ _ E (keys_names _ _ Hk) F)). subst n0.
            assert (key0 = key) by (exact (keys_fun _ _ _ X Hk)).
            subst key0. rewrite zs_eqb_refl. eauto.
          * intros F. destruct (zs_eqb (str key) (str key0)) eqn:Z; [|reflexivity]. apply zs_eqb_eq in Z. destruct (keys_inj _ _ _ _ Hk X Z) as [-> _]. exfalso. apply F. auto.
        + apply ok_inj in H2. subst m'. split; [|reflexivity]. intros [_ F]. rewrite N1 in F. apply ok_inj in F. subst nm. exfalso.
          assert (G : In (str n) (map str plux_names)) by (apply in_map, (keys_names _ _ Hk)). apply tags_iff in G. congruence.
      - apply ok_inj in H2. subst m'. split; [intros [F _]; discriminate|reflexivity]. }
    destruct C as [C1 C2]. split.
    + intros s (be & x & af & t & E & N & F & V1 & V2). destruct af as [|y af _] using rev_ind.
      * apply app_inj_tail in E as [-> <-]. destruct (C1 N) as (v & V & G). rewrite G. assert (stripped i "VALUE" = Ok s) by (apply stripped_iff; eauto). congruence.
      * rewrite app_comm_cons, app_assoc in E. apply app_inj_tail in E as [E ->]. rewrite C2 by (apply F, in_or_app; right; left; reflexivity). apply A.
        exists be, x, af, t. split; [exact E|]. split; [exact N|]. split; [|auto]. intros i' Hi. apply F, in_or_app. auto.
    + intros F. rewrite C2 by (apply F, in_or_app; right; left; reflexivity). apply B. intros i' Hi. apply F, in_or_app. auto.
Qed.
Lemma info_keys py : forall items m m', plux_info py items m = Ok m' -> NoDup (map fst m) -> NoDup (map fst m').
Proof.
  induction items as [|i items IH]; intros m m' H N; cbn [plux_info] in H; [apply ok_inj in H; congruence|]. destruct (prefix_of _ _); [|eauto].
  apply rbind_ok in H as (n & H1 & H). destruct (existsb (zs_eqb n) plux_tags); [|eauto]. apply rbind_ok in H as (v & _ & H). eapply IH; [exact H|apply gput_keys, N].
Qed.
Lemma last_dec (items : list elem) n : Forall item_readable items -> In n plux_names -> (exists s, last_item items n s) \/ (forall i, In i items -> ~ item_named i n).
Proof.
  intros F Hn. induction items as [|i items IH] using rev_ind; [right; intros i []|]. apply Forall_app in F as [F1 F2]. inversion F2 as [|? ? R _]; subst.
  assert (D : item_named i n \/ ~ item_named i n).
  { rewrite stripped_name. destruct (prefix_of (str "ITEM_") (etag i)); [|right; intros [G _]; discriminate]. destruct (stripped i "NAME") as [x|]; [|right; intros [_ G]; discriminate].
    destruct (list_eq_dec Z.eq_dec x (str n)) as [->|G]; [auto|right; intros [_ G']; apply ok_inj in G'; contradiction]. }
  destruct D as [D|D].
  - left. pose proof D as (D1 & t0 & D2 & D3). destruct (R D1) as (t & n0 & T1 & T2 & T3). pose proof (says_unique _ _ _ _ D2 T1). subst t0. apply strip_ends in D3, T2. rewrite D3 in T2. subst n0.
    destruct (T3 (in_map str _ _ Hn)) as (v & V). exists (strip v), items, i, [], v. split; [reflexivity|]. split; [exact D|]. split; [intros i' []|]. split; [exact V|]. apply strip_ends. reflexivity.
  - destruct (IH F1) as [(s & be & x & af & t & E & G1 & G2 & G3)|G].
    + left. exists s, be, x, (af ++ [i]), t. split; [rewrite E, <- app_assoc; reflexivity|]. split; [exact G1|]. split; [|exact G3]. intros i' Hi. apply in_app_or in Hi as [Hi|[<-|[]]]; auto.
    + right. intros i' Hi. apply in_app_or in Hi as [Hi|[<-|[]]]; auto.
Qed.
(** C84: what is in the metadata *)
Theorem C84_plux_metadata : forall py en images (b : bytes) p, lowers py -> read_plux py en images b = Ok p ->
  exists a root, unzip py b = Ok a /\ plux_document py en a root /\ plux_metadata_is py root (pmeta p).
Proof.
  intros py en images b p Lo H. apply plux_iff in H as (a & nx & ny & root & dt & d & S & _ & Doc & D1 & D2 & If & _). exists a, root. split; [exact (proj1 S)|]. split; [exact Doc|].
  set (m := pmeta p) in *. clearbody m. clear S Doc p. unfold plux_metadata_is.
  assert (Ts : forall n key, In (n, key) plux_keys -> str "timestamp" <> str key) by (intros n key Hk; cbn in Hk; repeat (destruct Hk as [Hk|Hk]; [injection Hk as <- <-; discriminate|]); destruct Hk).
  assert (G0 : forall k, gget [(str "timestamp", MDate d)] k = if zs_eqb k (str "timestamp") then Some (MDate d) else None) by (intros k; reflexivity).
  assert (N : NoDup (map fst m)).
  { unfold info_of in If. destruct (efind root ["INFO"%string]); [apply info_keys in If; [exact If|]|apply ok_inj in If; subst m]; cbn; constructor; auto; constructor. }
  assert (Get : (forall k, (forall n key, In (n, key) plux_keys -> k <> str key) -> gget m k = gget [(str "timestamp", MDate d)] k) /\
     (forall n key, In (n, key) plux_keys -> forall v, gget m (str key) = Some v <-> exists s, last_value root n s /\ v = MText s)).
  { unfold info_of in If. destruct (efind root ["INFO"%string]) as [info|] eqn:E.
    - apply find_iff in E. split; [intros k K; eapply info_get; eassumption|]. intros n key Hk v. destruct (info_key py Lo _ _ _ If n key Hk) as [A B].
      assert (R : Forall item_readable (ekids info)) by (apply (info_ok py (ekids info) [(str "timestamp", MDate d)]); eauto).
      assert (Q : forall s, last_value root n s <-> last_item (ekids info) n s).
      { intros s. split.
        - intros (info' & be & i & af & t & F & G). pose proof (first_unique _ _ _ _ F E). subst info'. exists be, i, af, t. exact G.
        - intros (be & i & af & t & G). exists info, be, i, af, t. auto. }
      destruct (last_dec _ n R (keys_names _ _ Hk)) as [(s & L)|L].
      + rewrite (A s L). split; [intros F; injection F as <-; exists s; split; [apply Q, L|reflexivity]|]. intros (s' & L' & ->). apply Q in L'. rewrite <- (A s L), (A s' L'). reflexivity.
      + rewrite (B L), G0. pose proof (Ts _ _ Hk) as T. destruct (zs_eqb (str key) (str "timestamp")) eqn:Z; [apply zs_eqb_eq in Z; congruence|]. split; [discriminate|].
        intros (s & L' & _). apply Q in L' as (be & i & af & t & Ek & G & _). exfalso. apply (L i); [rewrite Ek; apply in_or_app; right; left; reflexivity|exact G].
    - apply ok_inj in If. subst m. split; [reflexivity|]. intros n key Hk v. rewrite G0. pose proof (Ts _ _ Hk) as T. destruct (zs_eqb (str key) (str "timestamp")) eqn:Z; [apply zs_eqb_eq in Z; congruence|].
      split; [discriminate|]. intros (s & (info & be & i & af & t & F & _) & _). apply find_iff in F. congruence. }
  destruct Get as [Ga Gb]. split; [exact N|]. intros k v. rewrite (gget_in m k v N).
  assert (K : (exists n key, In (n, key) plux_keys /\ k = str key) \/ (forall n key, In (n, key) plux_keys -> k <> str key)).
  { destruct (in_dec (list_eq_dec Z.eq_dec) k (map (fun '(_, key) => str key) plux_keys)) as [I|I].
    - left. apply in_map_iff in I as ([n key] & E & I). eauto.
    - right. intros n key Hk ->. apply I. apply in_map_iff. exists (n, key). auto. }
  destruct K as [(n & key & Hk & ->)|K].
  - rewrite (Gb n key Hk v). split.
    + intros (s & L & ->). right. exists n, key, s. auto.
    + intros [[F _]|(n' & key' & s & Hk' & E & L & ->)]; [exfalso; exact (Ts _ _ Hk (eq_sym F))|]. destruct (keys_inj _ _ _ _ Hk Hk' E) as [-> _]. eauto.
  - rewrite (Ga k K), G0. split.
    + destruct (zs_eqb k (str "timestamp")) eqn:Z; [|discriminate]. apply zs_eqb_eq in Z. intros F. injection F as <-. left. split; [exact Z|]. eauto.
    + intros [[-> (dt' & d' & X1 & X2 & ->)]|(n & key & s & Hk & E & _)]; [|exfalso; exact (K _ _ Hk E)]. rewrite zs_eqb_refl. pose proof (says_unique _ _ _ _ X1 D1). congruence.
Qed.

(** ** What does not hold *)
(** C84, refuted: a file without a picture, readable as such, is not read at all if the pictures are asked for *)
Theorem C84_plux_no_image_refuted : forall py en (b : bytes) p a, read_plux py en false b = Ok p -> unzip py b = Ok a -> (forall c, ~ SpecZip.holds a (str "LAYER_0.stack.raw") c) ->
  read_plux py en true b = Err UnboundLocalError.
Proof.
  intros py en b p a H Ha N. unfold read_plux in *. rewrite Ha in *. cbn [rbind] in *. apply rbind_ok in H as (hs & H1 & H). rewrite H1. cbn [rbind andb] in *.
  destruct (has a "LAYER_0.stack.raw") eqn:E; [apply has_iff in E as (c & E); exfalso; exact (N c E)|]. cbn [rbind].
  apply rbind_ok in H as (xml & H3 & H). rewrite H3. cbn [rbind]. apply rbind_ok in H as (root & H4 & H). rewrite H4. cbn [rbind]. apply rbind_ok in H as (d & H5 & H). rewrite H5. cbn [rbind].
  apply rbind_ok in H as (m & H6 & H). rewrite H6. cbn [rbind]. apply rbind_ok in H as (nx & H7 & H). rewrite H7. cbn [rbind]. apply rbind_ok in H as (ny & H8 & H). rewrite H8. cbn [rbind].
  apply rbind_ok in H as (sx & H9 & H). rewrite H9. cbn [rbind]. apply rbind_ok in H as (sy & H10 & H). rewrite H10. cbn [rbind]. destruct ((nx <? 0) || (ny <? 0)); [discriminate|].
  cbv zeta in *. destruct (Nat.ltb (length hs) (Z.to_nat (nx * ny) * 4)); [discriminate|]. apply rbind_ok in H as (data & H11 & _). rewrite H11. reflexivity.
Qed.
(** C84, refuted: one of the six entries without a value makes the file unreadable, however sound its heights *)
Theorem C84_plux_empty_value_refuted : forall py en images (b : bytes) a root info i n c, unzip py b = Ok a -> plux_document py en a root ->
  first_at root ["INFO"%string] info -> In i (ekids info) -> In n plux_names -> item_named i n -> first_at i ["VALUE"%string] c -> etext c = None ->
  is_ok (read_plux py en images b) = false.
Proof.
  intros py en images b a root info i n c Ha Doc Hi Ii Hn Nm Hc Ec. destruct (read_plux py en images b) as [p|] eqn:E; [exfalso|reflexivity].
  apply plux_iff in E as (a' & nx & ny & _ & _ & _ & (Ha' & hs & root' & _ & Doc' & _ & Rd & _) & _). assert (a' = a) by congruence. subst a'.
  destruct Doc as (xf & xml & F1 & F2 & F3). destruct Doc' as (xf' & xml' & F1' & F2' & F3'). pose proof (holds_unique _ _ _ _ F1 F1'). subst xf'. assert (xml' = xml) by congruence. subst xml'. assert (root' = root) by congruence. subst root'.
  destruct Nm as (Tg & t0 & T1 & T2). destruct (Rd info i Hi Ii Tg) as (t & n0 & T3 & T4 & V). pose proof (says_unique _ _ _ _ T1 T3). subst t0. apply strip_ends in T2, T4. rewrite T2 in T4. subst n0.
  destruct (V (in_map str _ _ Hn)) as (v & c' & C1 & C2). pose proof (first_unique _ _ _ _ C1 Hc). congruence.
Qed.
(** C84, refuted: no value of a loaded surface can be replaced by surface[i, j] = x *)
Theorem C84_plux_edit_refuted : forall py en images (b : bytes) p i j x, read_plux py en images b = Ok p -> set_item (pdata p) i j x = Err ValueError.
Proof. intros py en images b p i j x H. apply plux_iff in H as (_ & _ & _ & _ & _ & _ & _ & W & _). unfold set_item. rewrite W. reflexivity. Qed.
