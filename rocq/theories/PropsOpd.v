(** C74, C75, C76 for Wyko OPD files (surfalize/file/opd.py). *)
From Coq Require Import String Ascii ZArith Lia Bool.
From Coq Require Import List.
From Flocq Require Import IEEE754.BinarySingleNaN IEEE754.Binary IEEE754.Bits.
From Verif Require Import Base ModelBytes ModelSur ModelFormats ModelReaders ModelOpd SpecReaders SpecOpd ProofBytes ProofReaders PropsMagic PropsLayout PropsReaders ExamplesReaders.
Import ListNotations.
Local Open Scope Z_scope.

Definition types_ok (t : Z) : Prop := existsb (Z.eqb t) block_types = true.
Definition entry_ok (en : encoding) (b : bytes) (k : nat) : Prop :=
  (entry_at k + 24 <= length b)%nat /\ is_ok (decode en (slice (entry_at k) 16 b)) = true /\ types_ok (entry_type b k).
Definition entry_of (en : encoding) (b : bytes) (k : nat) : pystr * block := (entry_name en b k, (entry_type b k, entry_size b k)).
Lemma item_i_slice n b o : (n = 2 \/ n = 4)%nat -> (o + n <= length b)%nat -> item_i n (slice o n b) = two_compl (8 * Z.of_nat n) (uint n b o).
Proof.
  intros N H. unfold item_i. rewrite unle_slice by exact H. unfold to_signed, two_compl. destruct N as [-> | ->]; reflexivity.
Qed.
Lemma block_iff en b k nm bl h : read_block en {| contents := b; pos := entry_at k |} = Ok (nm, bl, h) <->
  entry_ok en b k /\ nm = entry_name en b k /\ bl = (entry_type b k, entry_size b k) /\ h = {| contents := b; pos := entry_at (S k) |}.
Proof.
  unfold read_block. rewrite fread_slice. unfold entry_ok, entry_name. change (firstn 16 (skipn (entry_at k) b)) with (slice (entry_at k) 16 b).
  set (p := entry_at k). assert (Es : entry_at (S k) = (p + 24)%nat) by (unfold p, entry_at; lia). rewrite Es.
  destruct (decode en (slice p 16 b)) as [s|ex] eqn:D; cbn [rbind is_ok].
  2:{ split; [discriminate|intros ((_ & X & _) & _); discriminate]. }
  rewrite fread_slice. rewrite slice_eqb by lia.
  destruct (Nat.leb_spec (p + length (slice p 16 b) + 8) (length b)) as [L|L].
  2:{ cbn [negb]. split; [discriminate|]. intros ((L' & _) & _). rewrite slice_len in L by lia. lia. }
  assert (L16 : length (slice p 16 b) = 16%nat) by (rewrite slice_length in L |- *; lia). rewrite L16 in *. cbn [negb].
  rewrite (slice_len (p + 16) 8) by lia.
  replace (p + 16 + 8)%nat with (p + 24)%nat by lia.
  assert (E1 : item_i 2 (firstn 2 (slice (p + 16) 8 b)) = entry_type b k).
  { change (firstn 2 (slice (p + 16) 8 b)) with (slice 0 2 (slice (p + 16) 8 b)). rewrite slice_slice, Nat.add_0_r by lia. rewrite item_i_slice by (auto; lia). reflexivity. }
  assert (E2 : item_i 4 (firstn 4 (skipn 2 (slice (p + 16) 8 b))) = entry_size b k).
  { change (firstn 4 (skipn 2 (slice (p + 16) 8 b))) with (slice 2 4 (slice (p + 16) 8 b)). rewrite slice_slice by lia. rewrite item_i_slice by (auto; lia).
    unfold entry_size. fold p. replace (p + 16 + 2)%nat with (p + 18)%nat by lia. reflexivity. }
  rewrite E1, E2. unfold types_ok. destruct (existsb (Z.eqb (entry_type b k)) block_types) eqn:T; cbn [negb].
  - split.
    + intros H. apply ok_inj in H. injection H as <- <- <-. repeat split; auto. lia.
    + intros (_ & -> & -> & ->). reflexivity.
  - split; [discriminate|intros ((_ & _ & X) & _); discriminate].
Qed.
Definition listed (en : encoding) (b : bytes) (k0 n : nat) : list (pystr * block) := map (entry_of en b) (seq k0 n).
Lemma blocks_iff en b : forall n k0 acc bs h, read_blocks en n acc {| contents := b; pos := entry_at k0 |} = Ok (bs, h) <->
  (forall k, (k0 <= k < k0 + n)%nat -> entry_ok en b k) /\
  bs = fold_left (fun a x => bput a (fst x) (snd x)) (listed en b k0 n) acc /\ h = {| contents := b; pos := entry_at (k0 + n) |}.
Proof.
  induction n as [|n IH]; intros k0 acc bs h; cbn [read_blocks].
  - rewrite Nat.add_0_r. split.
    + intros H. apply ok_inj in H. injection H as <- <-. repeat split; auto; lia.
    + intros (_ & -> & ->). reflexivity.
  - unfold listed. cbn [seq map fold_left fst snd entry_of]. fold (listed en b (S k0) n). split.
    + intros H. apply rbind_ok in H as ([[nm bl] h1] & H1 & H2). apply block_iff in H1 as (H1 & -> & -> & ->). apply IH in H2 as (H2 & -> & ->).
      split; [|split; [reflexivity|rewrite Nat.add_succ_r; reflexivity]]. intros k Hk. destruct (Nat.eq_dec k k0) as [->|N]; [exact H1|apply H2; lia].
    + intros (H1 & -> & ->). rewrite (proj2 (block_iff en b k0 _ _ _)) by (repeat split; try (apply H1; lia); reflexivity). cbn [rbind].
      apply IH. split; [intros k Hk; apply H1; lia|]. split; [reflexivity|rewrite Nat.add_succ_r; reflexivity].
Qed.
Lemma bput_fresh : forall l k v, ~ In k (map fst l) -> bput l k v = (l ++ [(k, v)])%list.
Proof.
  induction l as [|[k' v'] l IH]; intros k v H; [reflexivity|]. cbn [bput app map fst] in *. destruct (zs_eqb k k') eqn:E.
  - apply zs_eqb_eq in E. subst. exfalso. apply H. left. reflexivity.
  - rewrite IH by (intros X; apply H; right; exact X). reflexivity.
Qed.
Lemma fold_bput : forall l acc, NoDup (map fst (acc ++ l)) -> fold_left (fun a x => bput a (fst x) (snd x)) l acc = (acc ++ l)%list.
Proof.
  induction l as [|[k v] l IH]; intros acc H; cbn [fold_left fst snd]; [rewrite app_nil_r; reflexivity|].
  rewrite bput_fresh.
  - rewrite IH; rewrite <- app_assoc; [reflexivity|exact H].
  - rewrite map_app in H. cbn [map fst] in H. apply NoDup_remove_2 in H. intros X. apply H. apply in_or_app. left. exact X.
Qed.
Lemma listed_nodup en b : names_distinct en b -> NoDup (map fst (listed en b 1 (entries b - 1))).
Proof.
  intros H. unfold listed. rewrite map_map. cbn [fst entry_of]. apply NoDup_nth with (d := entry_name en b 0). intros i j. rewrite map_length, seq_length.
  intros Hi Hj. rewrite !(map_nth (fun x => entry_name en b x)), !seq_nth by lia. intros E. destruct (Nat.lt_trichotomy i j) as [L|[L|L]]; auto; exfalso.
  - apply (H (1 + i)%nat (1 + j)%nat); auto; lia.
  - apply (H (1 + j)%nat (1 + i)%nat); auto; lia.
Qed.
(** the blocks with their offsets *)
Definition placed (en : encoding) (b : bytes) (k0 n : nat) : list (pystr * (Z * Z * Z)) :=
  map (fun k => (entry_name en b k, (entry_type b k, entry_size b k, entry_offset b k))) (seq k0 n).
Lemma place_listed en b : forall n k0, (1 <= k0)%nat -> place (entry_offset b k0) (listed en b k0 n) = placed en b k0 n.
Proof.
  induction n as [|n IH]; intros k0 H; [reflexivity|]. unfold listed, placed. cbn [seq map place entry_of]. fold (listed en b (S k0) n) (placed en b (S k0) n).
  apply (f_equal2 (@cons _)); [reflexivity|]. rewrite <- IH by lia. f_equal. unfold entry_offset. cbn [sizes_upto]. destruct k0; [lia|]. cbn [Nat.eqb]. lia.
Qed.
Lemma placed_names en b k0 n : map fst (placed en b k0 n) = map fst (listed en b k0 n).
Proof. unfold placed, listed. rewrite !map_map. reflexivity. Qed.
Lemma bget_in {A} : forall (l : list (pystr * A)) k v, bget l k = Some v -> In (k, v) l.
Proof.
  induction l as [|[k' v'] l IH]; cbn; [discriminate|]. intros k v. destruct (zs_eqb k k') eqn:E; [intros H; injection H as ->; apply zs_eqb_eq in E; subst; auto|auto].
Qed.
Lemma bget_nodup {A} : forall (l : list (pystr * A)) k v, NoDup (map fst l) -> In (k, v) l -> bget l k = Some v.
Proof.
  induction l as [|[k' v'] l IH]; cbn; [contradiction|]. intros k v H [E|I].
  - injection E as -> ->. rewrite zs_eqb_refl. reflexivity.
  - inversion H as [|? ? Hn Hd]; subst. destruct (zs_eqb k k') eqn:E; [|auto]. apply zs_eqb_eq in E. subst. exfalso. apply Hn.
    apply in_map_iff. exists (k', v). auto.
Qed.
Lemma bget_none {A} : forall (l : list (pystr * A)) k, ~ In k (map fst l) -> bget l k = None.
Proof. intros l k H. destruct (bget l k) eqn:E; [|reflexivity]. apply bget_in in E. exfalso. apply H. apply in_map_iff. eexists. split; [|exact E]. reflexivity. Qed.
Lemma placed_in en b k0 n x : In x (placed en b k0 n) <-> exists k, (k0 <= k < k0 + n)%nat /\ x = (entry_name en b k, (entry_type b k, entry_size b k, entry_offset b k)).
Proof. unfold placed. rewrite in_map_iff. split; intros (k & H1 & H2); exists k; [apply in_seq in H2|]; auto. split; [auto|apply in_seq; lia]. Qed.

(** *** arrays *)
Lemma rot90_grid {A} (d : A) nx ny v : rot90 d nx ny (grid nx ny v) = grid ny nx (fun i j => v j (ny - 1 - i)%nat).
Proof.
  unfold rot90. apply map_ext_in. intros i Hi. apply map_ext_in. intros j Hj. apply in_seq in Hi, Hj. unfold grid.
  rewrite (nth_indep _ [] (map (fun j' => v 0%nat j') (seq 0 ny))) by (rewrite map_length, seq_length; lia).
  rewrite (map_nth (fun i => map (fun j => v i j) (seq 0 ny))), seq_nth by lia.
  rewrite (nth_indep _ d (v (0 + j)%nat 0%nat)) by (rewrite map_length, seq_length; lia).
  rewrite (map_nth (fun j' => v (0 + j)%nat j')), seq_nth by lia. reflexivity.
Qed.
Lemma opd_itemsize_iff k n : opd_itemsize k = Ok n <-> (k = 1 \/ k = 2 \/ k = 4) /\ n = Z.to_nat k.
Proof.
  unfold opd_itemsize. destruct (Z.eqb_spec k 1) as [->|]; [|destruct (Z.eqb_spec k 2) as [->|]; [|destruct (Z.eqb_spec k 4) as [->|]]].
  1-3: split; [intros H; apply ok_inj in H; subst n; auto|intros [_ ->]; reflexivity].
  split; [discriminate|lia].
Qed.
Definition array_ok (b : bytes) (size : Z) (o : nat) : Prop :=
  (u16 b (o + 4) = 1 \/ u16 b (o + 4) = 2 \/ u16 b (o + 4) = 4) /\ u16 b o * u16 b (o + 2) * u16 b (o + 4) = size - 6 /\
  (o + 6 + Z.to_nat (u16 b o) * Z.to_nat (u16 b (o + 2)) * Z.to_nat (u16 b (o + 4)) <= length b)%nat.
Definition array_items (b : bytes) (o : nat) : list (list bytes) :=
  let nx := Z.to_nat (u16 b o) in let ny := Z.to_nat (u16 b (o + 2)) in let k := Z.to_nat (u16 b (o + 4)) in
  grid ny nx (fun i j => slice (o + 6 + (j * ny + (ny - 1 - i)) * k) k b).
Lemma array_iff b size o n m : is_file b -> opd_array size {| contents := b; pos := o |} = Ok (n, m) <->
  array_ok b size o /\ n = Z.to_nat (u16 b (o + 4)) /\ m = array_items b o.
Proof.
  intros Hf. unfold opd_array. rewrite fread_slice, slice_eqb by lia. unfold array_ok.
  destruct (Nat.leb_spec (o + 6) (length b)) as [L|L]; cbn [negb].
  2:{ split; [discriminate|intros ((_ & _ & X) & _); exfalso; clear - X L; lia]. }
  rewrite slice_len by lia.
  change (firstn 2 (slice o 6 b)) with (slice 0 2 (slice o 6 b)). rewrite slice_slice, Nat.add_0_r by lia.
  change (firstn 2 (skipn 2 (slice o 6 b))) with (slice 2 2 (slice o 6 b)). rewrite slice_slice by lia.
  assert (E : skipn 4 (slice o 6 b) = slice (o + 4) 2 b).
  { rewrite <- (slice_slice o 6 4 2 b) by lia. unfold slice at 2. rewrite firstn_all2; [reflexivity|]. rewrite skipn_length, slice_len; lia. }
  rewrite E. clear E. unfold item_u at 1 2 3 4 5 6 7 8 9. rewrite !unle_slice by lia. fold (u16 b o) (u16 b (o + 2)) (u16 b (o + 4)).
  pose proof (uint_range 2 b o Hf) as N1. pose proof (uint_range 2 b (o + 2) Hf) as N2. fold (u16 b o) in N1. fold (u16 b (o + 2)) in N2.
  destruct (Z.eqb_spec (u16 b o * u16 b (o + 2) * u16 b (o + 4)) (size - 6)) as [Q|Q]; cbn [negb].
  2:{ split; [discriminate|intros ((_ & X & _) & _); contradiction]. }
  destruct (opd_itemsize (u16 b (o + 4))) as [k|ex] eqn:K; cbn [rbind].
  2:{ split; [discriminate|]. intros ((X & _) & _). pose proof (proj2 (opd_itemsize_iff _ (Z.to_nat (u16 b (o + 4)))) (conj X eq_refl)). congruence. }
  apply opd_itemsize_iff in K as [K ->]. set (kk := Z.to_nat (u16 b (o + 4))) in *. assert (Kp : (0 < kk)%nat) by (unfold kk; destruct K as [-> |[-> | ->]]; cbv; lia).
  set (nx := Z.to_nat (u16 b o)) in *. set (ny := Z.to_nat (u16 b (o + 2))) in *.
  assert (Ez : Z.to_nat (u16 b o * u16 b (o + 2)) = (nx * ny)%nat) by (unfold nx, ny; nia).
  assert (F : forall l, l = items kk b (o + 6) (nx * ny) -> rot90 [] nx ny (grid nx ny (fun i j => nth (i * ny + j) l [])) = array_items b o).
  { intros l ->. rewrite rot90_grid. unfold array_items. fold nx ny kk. apply grid_ext'. intros i j Hi Hj. rewrite items_nth by nia. reflexivity. }
  split.
  - intros H. apply rbind_ok in H as ([its h'] & H1 & H2). apply rmap_ok in H2 as (m' & H2 & E). apply (reshape_inv []) in H2 as [Ln ->].
    apply read_items_inv in H1 as [_ H1]; [|exact Kp|nia]. rewrite Ez in H1. destruct (H1 Ln) as (C & Ei & _). injection E as -> ->.
    split; [|split; [reflexivity|apply F; exact Ei]]. split; [exact K|]. split; [exact Q|]. destruct C as [C|C]; [|exact C].
    assert (nx * ny = 0)%nat by lia. replace (nx * ny * kk)%nat with 0%nat by nia. lia.
  - intros ((_ & _ & C) & -> & ->). rewrite read_items_ok by (rewrite ?Ez; auto; nia). cbn [rbind].
    pose proof (reshape_ok (A := bytes) [] nx ny (items kk b (o + 6) (nx * ny)) ltac:(apply items_length)) as R.
    rewrite Ez.
    rewrite R. cbn [rmap]. do 2 f_equal. apply F. reflexivity.
Qed.

Lemma point_slice k scale b p : (k = 1 \/ k = 2 \/ k = 4)%nat -> (p + k <= length b)%nat -> opd_height k scale (slice p k b) = point_at k scale b p.
Proof.
  intros K L. unfold opd_height, point_at, item_u, item_f32, feq_s. destruct K as [-> |[-> | ->]].
  - rewrite unle_slice by exact L. cbn [uint]. do 2 f_equal. lia.
  - rewrite item_i_slice by (auto; lia). reflexivity.
  - rewrite unle_slice by exact L. fold (f32_at b p). unfold single_at. destruct (b32_compare _ _) as [[| |]|]; reflexivity.
Qed.

(** *** numbers and texts *)
Definition width (t : Z) : nat := if t =? 6 then 2%nat else if t =? 8 then 8%nat else 4%nat.
Lemma number_inv t size b o v : number_type t -> opd_number t size {| contents := b; pos := o |} = Ok v ->
  v = ONum (number_at t b o) /\ 0 < size /\ (o + width t <= length b)%nat.
Proof.
  intros T H. unfold opd_number in H.
  assert (G : forall n first, (0 < n)%nat -> n = width t -> (forall c, (o + n <= length b)%nat -> c = slice o n b -> first c = number_at t b o) ->
    (if size <? 0 then Err (if size <? -1 then ValueError else StructError) else
      let '(b', _) := fread (Z.to_nat size) {| contents := b; pos := o |} in
      if negb (Nat.eqb (length b') (Z.to_nat (size / Z.of_nat n) * n)) then Err StructError else
      if Nat.eqb (length b') 0 then Err IndexError else Ok (ONum (first (firstn n b')))) = Ok v ->
    v = ONum (number_at t b o) /\ 0 < size /\ (o + width t <= length b)%nat).
  { clear H. intros n first Hn Ew Hf H. destruct (Z.ltb_spec size 0) as [|Hs]; [discriminate|]. rewrite fread_slice in H.
    destruct (Nat.eqb_spec (length (slice o (Z.to_nat size) b)) (Z.to_nat (size / Z.of_nat n) * n)) as [E1|]; [|discriminate].
    cbn [negb] in H. destruct (Nat.eqb_spec (length (slice o (Z.to_nat size) b)) 0) as [|E2]; [discriminate|]. apply ok_inj in H. subst v.
    assert (Q : (Z.to_nat (size / Z.of_nat n) * n <= Z.to_nat size)%nat).
    { pose proof (Z.mul_div_le size (Z.of_nat n) ltac:(lia)). pose proof (Z.div_pos size (Z.of_nat n) Hs ltac:(lia)). nia. }
    assert (Q1 : (1 <= Z.to_nat (size / Z.of_nat n))%nat) by (destruct (Z.to_nat (size / Z.of_nat n)); [cbn in E1; lia|lia]).
    assert (Q2 : (n <= Z.to_nat size)%nat) by nia.
    rewrite slice_length in E1, E2.
    assert (Lo : (o + n <= length b)%nat) by nia.
    split; [|split; [lia|rewrite <- Ew; exact Lo]].
    f_equal. apply Hf; [exact Lo|]. change (firstn n (slice o (Z.to_nat size) b)) with (slice 0 n (slice o (Z.to_nat size) b)). rewrite slice_slice, Nat.add_0_r by lia. reflexivity. }
  destruct T as [-> |[-> |[-> | ->]]]; cbn [Z.eqb Pos.eqb] in H.
  - apply (G 2%nat (fun c => f64_of_Z (item_i 2 c))); [lia|reflexivity| |exact H]. intros c L ->. rewrite item_i_slice by (auto; lia). reflexivity.
  - apply (G 4%nat (fun c => f64_of_f32 (item_f32 c))); [lia|reflexivity| |exact H]. intros c L ->. unfold item_f32. rewrite unle_slice by exact L. reflexivity.
  - apply (G 8%nat (fun c => b64_of_bits (unle c))); [lia|reflexivity| |exact H]. intros c L ->. rewrite unle_slice by exact L. reflexivity.
  - apply (G 4%nat (fun c => f64_of_Z (item_i 4 c))); [lia|reflexivity| |exact H]. intros c L ->. rewrite item_i_slice by (auto; lia). reflexivity.
Qed.
Lemma text_inv en size h v : opd_text en size h = Ok v -> exists s, v = OText s.
Proof.
  unfold opd_text. destruct (size <? -1); [discriminate|]. destruct (if size =? -1 then fread_all h else fread (Z.to_nat size) h) as [c h'].
  intros H. apply rmap_ok in H as (s & _ & ->). eauto.
Qed.
Definition number_typeb (t : Z) : bool := (t =? 6) || (t =? 7) || (t =? 8) || (t =? 12).
Lemma number_typeb_iff t : number_typeb t = true <-> number_type t.
Proof. unfold number_typeb, number_type. lia. Qed.
(** what the metadata says about one name *)
Lemma metadata_inv en b p : forall l md, NoDup (map fst l) -> opd_metadata en l {| contents := b; pos := p |} = Ok md ->
  (forall k v, bget md k = Some v -> In k (map fst l)) /\
  (forall k t s off, In (k, (t, s, off)) l -> number_type t ->
    0 <= off /\ bget md k = Some (ONum (number_at t b (Z.to_nat off))) /\ (Z.to_nat off + width t <= length b)%nat) /\
  (forall k t s off, In (k, (t, s, off)) l -> ~ number_type t -> forall x, bget md k <> Some (ONum x)).
Proof.
  induction l as [|[k0 [[t0 s0] off0]] l IH]; intros md Hn H; cbn [opd_metadata] in H.
  - apply ok_inj in H. subst md. repeat split; try contradiction; intros; discriminate.
  - cbn [map fst] in Hn. inversion Hn as [|? ? Hk0 Hn']; subst.
    assert (St : forall md' : list (pystr * opd_value), (forall k v, bget md' k = Some v -> In k (map fst l)) -> bget md' k0 = None).
    { intros md' Hm. destruct (bget md' k0) eqn:E; [|reflexivity]. exfalso. apply Hk0. eapply Hm. exact E. }
    destruct (existsb (Z.eqb t0) [5; 6; 7; 8; 12]) eqn:T.
    + apply rbind_ok in H as (h1 & Hs & H). apply rbind_ok in H as (v & Hv & H). apply rbind_ok in H as (md' & Hm & H). apply ok_inj in H.
      destruct (IH md' Hn' Hm) as (I1 & I2 & I3). pose proof (St md' I1) as N0. clear St IH.
      unfold seek_to in Hs. destruct (Z.ltb_spec off0 0) as [|Ho]; [discriminate|]. apply ok_inj in Hs. subst h1. unfold fseek in Hv. cbn [contents] in Hv.
      assert (Hother : forall k, k <> k0 -> bget md k = bget md' k).
      { intros k Hk. assert (zs_eqb k k0 = false) by (destruct (zs_eqb k k0) eqn:E; [apply zs_eqb_eq in E; contradiction|reflexivity]).
        destruct v as [x|[|c s]]; subst md; [| reflexivity |]; cbn [bget]; rewrite H0; reflexivity. }
      assert (Hin : forall k t s off, In (k, (t, s, off)) l -> k <> k0) by (intros k t s off Hi ->; apply Hk0; apply in_map_iff; exists (k0, (t, s, off)); auto).
      destruct (Z.eqb_spec t0 5) as [->|N5].
      * apply text_inv in Hv as (s & ->).
        assert (Hk : forall x, bget md k0 <> Some (ONum x)).
        { intros x. destruct s as [|c s]; subst md; [rewrite N0; discriminate|]. cbn [bget]. rewrite zs_eqb_refl. discriminate. }
        split; [|split].
        -- intros k v Hg. destruct (zs_eqb k k0) eqn:E; [apply zs_eqb_eq in E; subst; left; reflexivity|]. right. apply (I1 k v).
           rewrite <- Hother; [exact Hg|]. intros ->. rewrite zs_eqb_refl in E. discriminate.
        -- intros k t s' off [E|Hi] Hty; [injection E as <- <- <- <-; destruct Hty as [X|[X|[X|X]]]; discriminate|].
           rewrite Hother by (eapply Hin; exact Hi). apply (I2 k t s' off Hi Hty).
        -- intros k t s' off [E|Hi] Hty; [injection E as <- <- <- <-; exact Hk|]. rewrite Hother by (eapply Hin; exact Hi). apply (I3 k t s' off Hi Hty).
      * assert (Hty0 : number_type t0) by (cbn [existsb] in T; unfold number_type; lia).
        apply (number_inv t0 s0 b (Z.to_nat off0) v Hty0) in Hv as (-> & _ & Hw). subst md.
        split; [|split].
        -- intros k v Hg. cbn [bget] in Hg. destruct (zs_eqb k k0) eqn:E; [apply zs_eqb_eq in E; subst; left; reflexivity|]. right. apply (I1 k v Hg).
        -- intros k t s' off [E|Hi] Hty.
           ++ injection E as <- <- <- <-. split; [exact Ho|]. split; [|exact Hw]. cbn [bget]. rewrite zs_eqb_refl. reflexivity.
           ++ rewrite Hother by (eapply Hin; exact Hi). apply (I2 k t s' off Hi Hty).
        -- intros k t s' off [E|Hi] Hty; [injection E as <- <- <- <-; contradiction|]. rewrite Hother by (eapply Hin; exact Hi). apply (I3 k t s' off Hi Hty).
    + destruct (IH md Hn' H) as (I1 & I2 & I3). split; [|split].
      * intros k v Hg. right. apply (I1 k v Hg).
      * intros k t s' off [E|Hi] Hty; [injection E as <- <- <- <-; cbn [existsb] in T; unfold number_type in Hty; lia|apply (I2 k t s' off Hi Hty)].
      * intros k t s' off [E|Hi] Hty; [injection E as <- <- <- <-; rewrite (St md I1); discriminate|apply (I3 k t s' off Hi Hty)].
Qed.
Lemma label_inv en b p n md nm x : entries b = n -> names_distinct en b -> opd_metadata en (placed en b 1 (n - 1)) {| contents := b; pos := p |} = Ok md ->
  opd_label md nm = Ok x -> labelled en b nm x.
Proof.
  intros <- Hd Hm H. destruct (metadata_inv en b p (placed en b 1 (entries b - 1)) md ltac:(rewrite placed_names; apply listed_nodup; exact Hd) Hm) as (I1 & I2 & I3).
  unfold labelled. unfold opd_label in H.
  destruct (bget (placed en b 1 (entries b - 1)) (str nm)) as [v|] eqn:G.
  - apply bget_in in G. apply placed_in in G as (k & Hk & E). injection E as E1 ->.
    assert (Hi : In (str nm, (entry_type b k, entry_size b k, entry_offset b k)) (placed en b 1 (entries b - 1))) by (apply placed_in; exists k; rewrite E1; auto).
    destruct (number_typeb (entry_type b k)) eqn:T.
    + apply number_typeb_iff in T. left. exists k. destruct (I2 _ _ _ _ Hi T) as (Ho & Hg & _). rewrite Hg in H. apply ok_inj in H. subst x.
      split; [lia|]. split; [symmetry; exact E1|]. split; [exact T|]. split; [exact Ho|reflexivity].
    + right. assert (Tn : ~ number_type (entry_type b k)) by (rewrite <- number_typeb_iff, T; discriminate).
      split.
      * intros k' Hk' E'. assert (k' = k); [|subst; exact Tn].
        destruct (Nat.lt_trichotomy k k') as [L|[L|L]]; auto; exfalso; [apply (Hd k k')|apply (Hd k' k)]; try lia; congruence.
      * pose proof (I3 _ _ _ _ Hi Tn) as X. destruct (bget md (str nm)) as [[y|y]|]; [exfalso; apply (X y); reflexivity|discriminate|apply ok_inj in H; congruence].
  - assert (Nn : forall k, (1 <= k < entries b)%nat -> entry_name en b k <> str nm).
    { intros k Hk E. assert (In (str nm, (entry_type b k, entry_size b k, entry_offset b k)) (placed en b 1 (entries b - 1))) by (apply placed_in; exists k; rewrite E; split; [lia|reflexivity]).
      apply bget_nodup in H0; [congruence|]. rewrite placed_names. apply listed_nodup. exact Hd. }
    right. split; [intros k Hk E; destruct (Nn k Hk E)|].
    destruct (bget md (str nm)) as [v|] eqn:Gm; [|apply ok_inj in H; congruence].
    apply I1 in Gm. rewrite placed_names in Gm. unfold listed in Gm. rewrite map_map in Gm. apply in_map_iff in Gm as (k & E & Hk). apply in_seq in Hk.
    exfalso. apply (Nn k); [lia|exact E].
Qed.

(** *** the directory *)
Definition dir_ok (en : encoding) (b : bytes) : Prop :=
  slice 0 11 b = opd_magic /\ entry_name en b 0 = str "Directory" /\ forall k, (k < Nat.max 1 (entries b))%nat -> entry_ok en b k.
Lemma entries_quot b : Z.to_nat (Z.quot (entry_size b 0) 24 - 1) = (entries b - 1)%nat.
Proof.
  unfold entries. change (i32 b 20) with (entry_size b 0). generalize (entry_size b 0). intros z.
  destruct (Z.le_gt_cases 0 z) as [P|P].
  - rewrite Z.quot_div_nonneg by lia. lia.
  - pose proof (Z.div_lt_upper_bound z 24 0 ltac:(lia) ltac:(lia)). assert (Z.quot z 24 <= 0); [|lia].
    replace z with (- (- z)) by lia. rewrite Z.quot_opp_l by lia. pose proof (Z.quot_pos (- z) 24 ltac:(lia) ltac:(lia)). lia.
Qed.
Lemma fread_pos n b o : snd (fread n {| contents := b; pos := o |}) = {| contents := b; pos := o + length (slice o n b) |}.
Proof. rewrite fread_slice. reflexivity. Qed.
Lemma read_opd_iff pd en im b r : read_opd pd en im (opened b) = Ok r <->
  dir_ok en b /\ exists bs, bs = fold_left (fun a x => bput a (fst x) (snd x)) (listed en b 1 (entries b - 1)) [] /\
    let p := entry_at (1 + (entries b - 1)) in opd_body pd en im (place (Z.of_nat p) bs) {| contents := b; pos := p |} = Ok r.
Proof.
  unfold read_opd, opened. rewrite fread_slice. change (length opd_magic) with 11%nat. unfold fseek. cbn [contents].
  unfold dir_ok. destruct (zs_eqb (slice 0 11 b) opd_magic) eqn:M; cbn [negb].
  2:{ split; [discriminate|]. intros ((X & _) & _). rewrite X, zs_eqb_refl in M. discriminate. }
  apply zs_eqb_eq in M. change {| contents := b; pos := 2 |} with {| contents := b; pos := entry_at 0 |}. split.
  - intros H. apply rbind_ok in H as ([[nm [t sz]] h2] & H1 & H). apply block_iff in H1 as (O & -> & E & ->). injection E as -> ->.
    destruct (zs_eqb (entry_name en b 0) (str "Directory")) eqn:N; [|discriminate]. apply zs_eqb_eq in N. cbn [negb] in H.
    apply rbind_ok in H as ([bs h3] & H1 & H). rewrite entries_quot in H1. apply blocks_iff in H1 as (A & E & ->). cbn [pos] in H.
    split; [|exists bs; auto]. split; [exact M|]. split; [exact N|]. intros [|k] Hk; [exact O|]. apply A. lia.
  - intros ((_ & N & A) & bs & E & H). pose proof (A 0%nat ltac:(lia)) as O.
    assert (R1 : read_block en {| contents := b; pos := entry_at 0 |} = Ok (entry_name en b 0, (entry_type b 0, entry_size b 0), {| contents := b; pos := entry_at 1 |})) by (apply block_iff; auto).
    rewrite R1. cbn [rbind]. rewrite N, zs_eqb_refl. cbn [negb]. rewrite entries_quot.
    assert (R2 : read_blocks en (entries b - 1) [] {| contents := b; pos := entry_at 1 |} = Ok (bs, {| contents := b; pos := entry_at (1 + (entries b - 1)) |})).
    { apply blocks_iff. split; [intros k Hk; apply A; lia|auto]. }
    rewrite R2. exact H.
Qed.
Lemma read_opd_distinct pd en im b r : names_distinct en b -> (read_opd pd en im (opened b) = Ok r <->
  dir_ok en b /\ opd_body pd en im (placed en b 1 (entries b - 1)) {| contents := b; pos := entry_at (1 + (entries b - 1)) |} = Ok r).
Proof.
  intros D. rewrite read_opd_iff, (fold_bput (listed en b 1 (entries b - 1)) []) by (apply listed_nodup; exact D). cbn [app].
  assert (P : place (Z.of_nat (entry_at (1 + (entries b - 1)))) (listed en b 1 (entries b - 1)) = placed en b 1 (entries b - 1)).
  { destruct (entries b) as [|n] eqn:E; [reflexivity|]. rewrite <- place_listed by lia. f_equal. unfold entry_offset. rewrite E. cbn [sizes_upto Nat.eqb]. replace (1 + (S n - 1))%nat with (S n) by lia. lia. }
  split.
  - intros (H1 & bs & -> & H2). cbv zeta in H2. rewrite P in H2. auto.
  - intros (H1 & H2). split; [exact H1|]. eexists. split; [reflexivity|]. cbv zeta. rewrite P. exact H2.
Qed.
Lemma table_iff b p t size off n m : is_file b -> opd_table t size off {| contents := b; pos := p |} = Ok (n, m) <->
  t = 3 /\ 0 <= off /\ array_ok b size (Z.to_nat off) /\ n = Z.to_nat (u16 b (Z.to_nat off + 4)) /\ m = array_items b (Z.to_nat off).
Proof.
  intros Hf. unfold opd_table, seek_to, fseek. cbn [contents]. destruct (Z.eqb_spec t 3) as [->|]; cbn [negb]; [|split; [discriminate|intros (? & _); contradiction]].
  destruct (Z.ltb_spec off 0); cbn [rbind]; [split; [discriminate|lia]|]. rewrite array_iff by exact Hf. tauto.
Qed.
(** *** the surface *)
Definition layer_of (en : encoding) (b : bytes) (im : bool) (l : list (string * list (list bytes))) : Prop :=
  if im then (exists q, (1 <= q < entries b)%nat /\ entry_name en b q = str "Image" /\ entry_type b q = 3 /\ 0 <= entry_offset b q /\
                array_ok b (entry_size b q) (Z.to_nat (entry_offset b q)) /\ l = [("Grayscale"%string, array_items b (Z.to_nat (entry_offset b q)))]) \/
             ((forall q, (1 <= q < entries b)%nat -> entry_name en b q <> str "Image") /\ l = [])
  else l = [].
Lemma bget_placed en b nm v : names_distinct en b -> bget (placed en b 1 (entries b - 1)) nm = Some v <->
  exists k, (1 <= k < entries b)%nat /\ entry_name en b k = nm /\ v = (entry_type b k, entry_size b k, entry_offset b k).
Proof.
  intros D. split.
  - intros H. apply bget_in in H. apply placed_in in H as (k & Hk & E). injection E as -> ->. exists k. split; [lia|auto].
  - intros (k & Hk & <- & ->). apply bget_nodup; [rewrite placed_names; apply listed_nodup; exact D|]. apply placed_in. exists k. split; [lia|reflexivity].
Qed.
Lemma bget_placed_none en b nm : names_distinct en b -> bget (placed en b 1 (entries b - 1)) nm = None <->
  forall k, (1 <= k < entries b)%nat -> entry_name en b k <> nm.
Proof.
  intros D. split.
  - intros H k Hk E. assert (X : bget (placed en b 1 (entries b - 1)) nm = Some (entry_type b k, entry_size b k, entry_offset b k)) by (apply bget_placed; eauto). congruence.
  - intros H. destruct (bget _ nm) as [v|] eqn:E; [|reflexivity]. apply bget_placed in E as (k & Hk & E & _); [|exact D]. destruct (H k Hk E).
Qed.
Lemma body_iff pd en im b p s l : is_file b -> names_distinct en b ->
  opd_body pd en im (placed en b 1 (entries b - 1)) {| contents := b; pos := p |} = Ok (s, l) <->
  exists r md wl mult px aspect, (1 <= r < entries b)%nat /\ entry_name en b r = str "RAW_DATA" /\ entry_type b r = 3 /\ 0 <= entry_offset b r /\
    let o := Z.to_nat (entry_offset b r) in array_ok b (entry_size b r) o /\ layer_of en b im l /\
    opd_metadata en (placed en b 1 (entries b - 1)) {| contents := b; pos := p |} = Ok md /\ opd_timestamp pd md = Ok tt /\
    opd_label md "Wavelength" = Ok wl /\ opd_label md "Mult" = Ok mult /\ opd_label md "Pixel_size" = Ok px /\ opd_label md "Aspect" = Ok aspect /\
    is_zero mult = false /\
    s = {| rdata := map (map (opd_height (Z.to_nat (u16 b (o + 4))) (fdiv (fmul wl (pow10 (-3))) mult))) (array_items b o);
           rstep_x := fmul px (pow10 3); rstep_y := fmul (fmul px (pow10 3)) aspect |}.
Proof.
  intros Hf D. unfold opd_body. split.
  - destruct (bget _ (str "RAW_DATA")) as [[[t sz] off]|] eqn:B; [|discriminate]. apply bget_placed in B as (r & Hr & En & E); [|exact D]. injection E as -> -> ->.
    intros H. apply rbind_ok in H as ([n data] & H1 & H). apply table_iff in H1 as (T & Ho & A & -> & ->); [|exact Hf].
    apply rbind_ok in H as (lay & HL & H). apply rbind_ok in H as (md & HM & H). apply rbind_ok in H as ([] & HT & H).
    apply rbind_ok in H as (wl & W & H). apply rbind_ok in H as (mult & Mu & H). destruct (is_zero mult) eqn:Iz; [discriminate|].
    apply rbind_ok in H as (px & P & H). apply rbind_ok in H as (aspect & As & H). apply ok_inj in H.
    exists r, md, wl, mult, px, aspect. split; [exact Hr|]. split; [exact En|]. split; [exact T|]. split; [exact Ho|]. cbv zeta.
    split; [exact A|]. split.
    { pose proof (f_equal snd H) as Hl. cbn [snd] in Hl. subst lay. unfold layer_of. destruct im.
      - destruct (bget _ (str "Image")) as [[[t' sz'] off']|] eqn:B.
        + left. apply bget_placed in B as (q & Hq & Eq & E); [|exact D]. injection E as -> -> ->. apply rmap_ok in HL as ([n' m'] & H1 & ->).
          apply table_iff in H1 as (T' & Ho' & A' & _ & ->); [|exact Hf]. exists q. auto 10.
        + right. apply ok_inj in HL. split; [apply bget_placed_none; assumption|congruence].
      - apply ok_inj in HL. congruence. }
    split; [exact HM|]. split; [exact HT|]. split; [exact W|]. split; [exact Mu|]. split; [exact P|]. split; [exact As|]. split; [exact Iz|].
    apply (f_equal fst) in H. cbn [fst] in H. symmetry. exact H.
  - intros (r & md & wl & mult & px & aspect & Hr & En & T & Ho & A & HL & HM & HT & W & Mu & P & As & Iz & ->).
    assert (B : bget (placed en b 1 (entries b - 1)) (str "RAW_DATA") = Some (entry_type b r, entry_size b r, entry_offset b r)) by (apply bget_placed; eauto).
    rewrite B.
    assert (R : opd_table (entry_type b r) (entry_size b r) (entry_offset b r) {| contents := b; pos := p |} = Ok (Z.to_nat (u16 b (Z.to_nat (entry_offset b r) + 4)), array_items b (Z.to_nat (entry_offset b r)))) by (apply table_iff; auto).
    rewrite R. cbn [rbind].
    match goal with |- rbind ?q _ = _ => assert (L : q = Ok l) end.
    { unfold layer_of in HL. destruct im; [|congruence]. destruct HL as [(q & Hq & Eq & Tq & Oq & Aq & ->)|[Nq ->]].
      - assert (B' : bget (placed en b 1 (entries b - 1)) (str "Image") = Some (entry_type b q, entry_size b q, entry_offset b q)) by (apply bget_placed; eauto).
        rewrite B'. assert (R' : opd_table (entry_type b q) (entry_size b q) (entry_offset b q) {| contents := b; pos := p |} = Ok (Z.to_nat (u16 b (Z.to_nat (entry_offset b q) + 4)), array_items b (Z.to_nat (entry_offset b q)))) by (apply table_iff; auto).
        rewrite R'. reflexivity.
      - apply bget_placed_none in Nq; [|exact D]. rewrite Nq. reflexivity. }
    rewrite L. cbn [rbind]. rewrite HM. cbn [rbind]. rewrite HT. cbn [rbind]. rewrite W. cbn [rbind]. rewrite Mu. cbn [rbind]. rewrite Iz, P. cbn [rbind]. rewrite As. reflexivity.
Qed.
Lemma array_points b size o scale : array_ok b size o ->
  let nx := Z.to_nat (u16 b o) in let ny := Z.to_nat (u16 b (o + 2)) in let k := Z.to_nat (u16 b (o + 4)) in
  map (map (opd_height k scale)) (array_items b o) = grid ny nx (fun i j => point_at k scale b (o + 6 + (j * ny + (ny - 1 - i)) * k)).
Proof.
  intros (K & _ & L) nx ny k. unfold array_items. fold nx ny k. fold nx ny k in L. rewrite grid_map. apply grid_ext'. intros i j Hi Hj.
  assert (K' : (k = 1 \/ k = 2 \/ k = 4)%nat) by (unfold k; lia). apply point_slice; [exact K'|].
  assert (j * ny + (ny - 1 - i) + 1 <= nx * ny)%nat by nia. nia.
Qed.
(** C74 for OPD: point (i, j) of the surface is the stored item of column j and row ny-1-i (the file stores columns from the bottom) *)
Theorem C74_opd : forall pd en im (b : bytes) s l, is_file b -> names_distinct en b -> read_opd pd en im (opened b) = Ok (s, l) ->
  exists r, (1 <= r < entries b)%nat /\ entry_name en b r = str "RAW_DATA" /\ entry_type b r = 3 /\ 0 <= entry_offset b r /\
  let o := Z.to_nat (entry_offset b r) in
  let nx := Z.to_nat (u16 b o) in let ny := Z.to_nat (u16 b (o + 2)) in let k := Z.to_nat (u16 b (o + 4)) in
  (k = 1 \/ k = 2 \/ k = 4)%nat /\ entry_size b r = Z.of_nat (6 + nx * ny * k) /\ (o + 6 + nx * ny * k <= length b)%nat /\
  exists wl mult px aspect, labelled en b "Wavelength" wl /\ labelled en b "Mult" mult /\ labelled en b "Pixel_size" px /\ labelled en b "Aspect" aspect /\
  table_is (rdata s) ny nx (fun i j x => x = point_at k (fdiv (fmul wl (pow10 (-3))) mult) b (o + 6 + (j * ny + (ny - 1 - i)) * k)) /\
  rstep_x s = fmul px (pow10 3) /\ rstep_y s = fmul (rstep_x s) aspect.
Proof.
  intros pd en im b s l Hf D H. apply read_opd_distinct in H as [_ H]; [|exact D]. apply body_iff in H; [|exact Hf|exact D].
  destruct H as (r & md & wl & mult & px & aspect & Hr & En & T & Ho & H). exists r. split; [exact Hr|]. split; [exact En|]. split; [exact T|]. split; [exact Ho|].
  cbv zeta in H. intros o nx ny k. fold o in H. destruct H as (A & _ & HM & _ & W & Mu & P & As & _ & ->).
  pose proof (array_points b _ o (fdiv (fmul wl (pow10 (-3))) mult) A) as E. cbv zeta in E. fold nx ny k in E.
  destruct A as (K & Q & L). fold nx ny k in L. pose proof (uint_range 2 b o Hf) as N1. pose proof (uint_range 2 b (o + 2) Hf) as N2. fold (u16 b o) in N1. fold (u16 b (o + 2)) in N2.
  split; [unfold k; lia|]. split; [|split; [exact L|]].
  { rewrite Nat2Z.inj_add, !Nat2Z.inj_mul. unfold nx, ny, k. rewrite !Z2Nat.id by lia. lia. }
  exists wl, mult, px, aspect.
  split; [eapply label_inv; eauto|]. split; [eapply label_inv; eauto|]. split; [eapply label_inv; eauto|]. split; [eapply label_inv; eauto|].
  cbn [rdata rstep_x rstep_y]. split; [|split; reflexivity]. fold k. rewrite E. apply grid_is. reflexivity.
Qed.
(** C76: the layer has the stored items of the block Image, laid out as the heights *)
Theorem C76_opd : forall pd en (b : bytes) s l, is_file b -> names_distinct en b -> read_opd pd en true (opened b) = Ok (s, l) ->
  read_opd pd en false (opened b) = Ok (s, []) /\
  ((exists q im, (1 <= q < entries b)%nat /\ entry_name en b q = str "Image" /\ l = [("Grayscale"%string, im)] /\
    let o := Z.to_nat (entry_offset b q) in
    let nx := Z.to_nat (u16 b o) in let ny := Z.to_nat (u16 b (o + 2)) in let k := Z.to_nat (u16 b (o + 4)) in
    table_is im ny nx (fun i j px => px = firstn k (skipn (o + 6 + (j * ny + (ny - 1 - i)) * k) b))) \/
   ((forall q, (1 <= q < entries b)%nat -> entry_name en b q <> str "Image") /\ l = [])).
Proof.
  intros pd en b s l Hf D H. apply read_opd_distinct in H as [Hd H]; [|exact D]. apply body_iff in H; [|exact Hf|exact D].
  destruct H as (r & md & wl & mult & px & aspect & Hr & En & T & Ho & A & HL & HX). split.
  - apply read_opd_distinct; [exact D|]. split; [exact Hd|]. apply body_iff; [exact Hf|exact D|]. exists r, md, wl, mult, px, aspect.
    split; [exact Hr|]. split; [exact En|]. split; [exact T|]. split; [exact Ho|]. cbv zeta. split; [exact A|]. split; [reflexivity|exact HX].
  - cbn [layer_of] in HL. destruct HL as [(q & Hq & Eq & _ & _ & Aq & ->)|HL]; [left|right; exact HL].
    exists q. eexists. split; [exact Hq|]. split; [exact Eq|]. split; [reflexivity|]. intros o nx ny k. unfold array_items. fold o nx ny k. apply grid_is. reflexivity.
Qed.
(** *** shorter and longer files *)
Section Longer.
Variables (c e : bytes).
Notation b := (c ++ e)%list.
Lemma u16_app' o : (o + 2 <= length c)%nat -> u16 b o = u16 c o. Proof. intros H. apply uint_app. exact H. Qed.
Lemma entries_app : (24 <= length c)%nat -> entries b = entries c.
Proof. intros H. unfold entries, i32. rewrite uint_app by lia. reflexivity. Qed.
Lemma entry_type_app k : (entry_at k + 24 <= length c)%nat -> entry_type b k = entry_type c k.
Proof. intros H. unfold entry_type, i16. rewrite uint_app by lia. reflexivity. Qed.
Lemma entry_size_app k : (entry_at k + 24 <= length c)%nat -> entry_size b k = entry_size c k.
Proof. intros H. unfold entry_size, i32. rewrite uint_app by lia. reflexivity. Qed.
Lemma entry_name_app en k : (entry_at k + 24 <= length c)%nat -> entry_name en b k = entry_name en c k.
Proof.
  intros H. unfold entry_name. change (firstn 16 (skipn (entry_at k) b)) with (slice (entry_at k) 16 b). change (firstn 16 (skipn (entry_at k) c)) with (slice (entry_at k) 16 c).
  rewrite slice_app by lia. reflexivity.
Qed.
Lemma entry_ok_app en k : (entry_at k + 24 <= length c)%nat -> entry_ok en b k <-> entry_ok en c k.
Proof. intros H. unfold entry_ok. rewrite slice_app, entry_type_app, app_length by lia. intuition lia. Qed.
Hypothesis Hin : (26 <= length c /\ entry_at (entries c) <= length c)%nat.
Lemma Hentry k : (k < entries c)%nat -> (entry_at k + 24 <= length c)%nat.
Proof. intros H. unfold entry_at in *. lia. Qed.
Lemma offset_app k : (k <= entries c)%nat -> entry_offset b k = entry_offset c k.
Proof.
  intros H. unfold entry_offset. rewrite entries_app by lia. f_equal. revert H. induction k as [|k IH]; intros H; cbn [sizes_upto]; [reflexivity|].
  rewrite IH by lia. destruct (Nat.eqb_spec k 0); [reflexivity|]. rewrite entry_size_app by (apply Hentry; lia). reflexivity.
Qed.
Lemma distinct_app en : names_distinct en b <-> names_distinct en c.
Proof.
  unfold names_distinct. rewrite entries_app by lia. split; intros H j k Hj Hk; specialize (H j k Hj Hk); rewrite !entry_name_app in * by (apply Hentry; lia); exact H.
Qed.
Lemma placed_app en : placed en b 1 (entries b - 1) = placed en c 1 (entries c - 1).
Proof.
  unfold placed. rewrite entries_app by lia. apply map_ext_in. intros k Hk. apply in_seq in Hk.
  rewrite entry_name_app, entry_type_app, entry_size_app, offset_app by (try apply Hentry; lia). reflexivity.
Qed.
Lemma dir_app en : dir_ok en c -> dir_ok en b.
Proof.
  intros (M & N & A). split; [rewrite slice_app by lia; exact M|]. split; [rewrite entry_name_app by (unfold entry_at; lia); exact N|].
  rewrite entries_app by lia. intros k Hk. apply entry_ok_app; [unfold entry_at in *; lia|auto].
Qed.
Lemma array_ok_app size o : (o + 6 <= length c)%nat -> array_ok c size o -> array_ok b size o.
Proof. intros L. unfold array_ok. rewrite !u16_app' by lia. rewrite app_length. intuition lia. Qed.
Lemma array_items_app size o : (o + 6 <= length c)%nat -> array_ok c size o -> array_items b o = array_items c o.
Proof.
  intros L (K & _ & H). unfold array_items. rewrite !u16_app' by lia. apply grid_ext'. intros i j Hi Hj. apply slice_app.
  set (nx := Z.to_nat (u16 c o)) in *. set (ny := Z.to_nat (u16 c (o + 2))) in *. set (k := Z.to_nat (u16 c (o + 4))) in *.
  assert (j * ny + (ny - 1 - i) + 1 <= nx * ny)%nat by nia. nia.
Qed.
Lemma number_app t size o : (0 <= size)%Z -> (o + Z.to_nat size <= length c)%nat ->
  opd_number t size {| contents := b; pos := o |} = opd_number t size {| contents := c; pos := o |}.
Proof. intros H L. unfold opd_number. rewrite !fread_slice, slice_app by exact L. reflexivity. Qed.
Lemma text_app en size o : (0 <= size)%Z -> (o + Z.to_nat size <= length c)%nat ->
  opd_text en size {| contents := b; pos := o |} = opd_text en size {| contents := c; pos := o |}.
Proof.
  intros H L. unfold opd_text. rewrite (proj2 (Z.eqb_neq size (-1))) by lia. rewrite !fread_slice, slice_app by exact L. reflexivity.
Qed.
Lemma metadata_app en p p' : forall l, (forall k t s off, In (k, (t, s, off)) l -> 0 <= s /\ off + s <= Z.of_nat (length c)) ->
  opd_metadata en l {| contents := b; pos := p |} = opd_metadata en l {| contents := c; pos := p' |}.
Proof.
  induction l as [|[k [[t s] off]] l IH]; intros H; [reflexivity|]. cbn [opd_metadata]. rewrite IH by (intros; eapply H; right; eassumption).
  destruct (existsb _ _); [|reflexivity]. unfold seek_to, fseek. cbn [contents]. destruct (Z.ltb_spec off 0); cbn [rbind]; [reflexivity|].
  destruct (H k t s off (or_introl eq_refl)) as [H1 H2]. rewrite text_app, number_app by lia. reflexivity.
Qed.
End Longer.
Lemma dir_inside en c : dir_ok en c -> (26 <= length c /\ entry_at (entries c) <= length c)%nat.
Proof.
  intros (_ & _ & A). pose proof (A 0%nat ltac:(lia)) as (L & _). split; [unfold entry_at in L; lia|].
  destruct (entries c) as [|n] eqn:E; [unfold entry_at in *; lia|]. pose proof (A n ltac:(lia)) as (L' & _). unfold entry_at in *. lia.
Qed.
(** C75: a cut inside the directory, the heights or one of the numbers is detected *)
Theorem C75_opd_cut : forall pd en im im' (b : bytes) s l n r, is_file b -> names_distinct en b -> read_opd pd en im (opened b) = Ok (s, l) ->
  (1 <= r < entries b)%nat -> entry_name en b r = str "RAW_DATA" ->
  (n < entry_at (entries b) \/ n < Z.to_nat (entry_offset b r + entry_size b r) \/
   exists q, (1 <= q < entries b) /\ number_type (entry_type b q) /\ n < Z.to_nat (entry_offset b q) + width (entry_type b q))%nat ->
  is_ok (read_opd pd en im' (opened (firstn n b))) = false.
Proof.
  intros pd en im im' b s l n r Hf D H Hr En Hn.
  destruct (read_opd pd en im' (opened (firstn n b))) as [[s' l']|ex] eqn:R; [exfalso|reflexivity].
  apply read_opd_distinct in H as [_ H]; [|exact D]. apply body_iff in H; [|exact Hf|exact D].
  destruct H as (r0 & md & wl & mult & px & aspect & Hr0 & En0 & T & Ho & A & _ & HM & _).
  assert (r0 = r) by (destruct (Nat.lt_trichotomy r0 r) as [X|[X|X]]; auto; exfalso; [apply (D r0 r)|apply (D r r0)]; try lia; congruence). subst r0.
  assert (Ln : (n <= length b)%nat).
  { destruct (Nat.le_gt_cases n (length b)) as [X|X]; [exact X|exfalso]. rewrite firstn_all2 in R by lia.
    apply read_opd_distinct in R as [Hd _]; [|exact D]. pose proof (dir_inside en b Hd) as [_ Li]. destruct Hn as [Hn|[Hn|(q & Hq & Tq & Hn)]]; [lia| |].
    - destruct A as (K & Q & L). pose proof (uint_range 2 b (Z.to_nat (entry_offset b r)) Hf) as N1. pose proof (uint_range 2 b (Z.to_nat (entry_offset b r) + 2) Hf) as N2.
      fold (u16 b (Z.to_nat (entry_offset b r))) in N1. fold (u16 b (Z.to_nat (entry_offset b r) + 2)) in N2.
      assert (E : entry_size b r = Z.of_nat (6 + Z.to_nat (u16 b (Z.to_nat (entry_offset b r))) * Z.to_nat (u16 b (Z.to_nat (entry_offset b r) + 2)) * Z.to_nat (u16 b (Z.to_nat (entry_offset b r) + 4)))).
      { rewrite Nat2Z.inj_add, !Nat2Z.inj_mul, !Z2Nat.id by lia. lia. }
      rewrite E in Hn. lia.
    - destruct (metadata_inv en b _ _ _ ltac:(rewrite placed_names; apply listed_nodup; exact D) HM) as (_ & I2 & _).
      destruct (I2 (entry_name en b q) (entry_type b q) (entry_size b q) (entry_offset b q)) as (_ & _ & Y); [apply placed_in; exists q; split; [lia|reflexivity]|exact Tq|]. lia. }
  assert (Eb : b = (firstn n b ++ skipn n b)%list) by (symmetry; apply firstn_skipn). assert (Lc : length (firstn n b) = n) by (apply firstn_length_le; exact Ln).
  set (c := firstn n b) in *. set (e := skipn n b) in *. clearbody c e. subst b.
  assert (Hdir : dir_ok en c) by (apply read_opd_iff in R; tauto). pose proof (dir_inside en c Hdir) as Li.
  assert (Hfc : is_file c) by (apply Forall_app in Hf; apply Hf).
  assert (Dc : names_distinct en c) by (apply (distinct_app c e Li); exact D).
  rewrite (entries_app c e) in Hn, Hr by lia.
  apply read_opd_distinct in R as [_ R]; [|exact Dc]. apply body_iff in R; [|exact Hfc|exact Dc].
  destruct R as (r1 & md1 & wl1 & mult1 & px1 & aspect1 & Hr1 & En1 & T1 & Ho1 & A1 & _ & HM1 & _).
  rewrite (entry_name_app c e) in En by (apply (Hentry c Li); lia).
  assert (r1 = r) by (destruct (Nat.lt_trichotomy r1 r) as [X|[X|X]]; auto; exfalso; [apply (Dc r1 r)|apply (Dc r r1)]; try lia; congruence). subst r1.
  destruct Hn as [Hn|[Hn|(q & Hq & Tq & Hn)]]; [lia| |].
  - rewrite (offset_app c e Li), (entry_size_app c e) in Hn by (try apply (Hentry c Li); lia).
    destruct A1 as (K & Q & L). pose proof (uint_range 2 c (Z.to_nat (entry_offset c r)) Hfc) as N1. pose proof (uint_range 2 c (Z.to_nat (entry_offset c r) + 2) Hfc) as N2.
    fold (u16 c (Z.to_nat (entry_offset c r))) in N1. fold (u16 c (Z.to_nat (entry_offset c r) + 2)) in N2.
    assert (E : entry_size c r = Z.of_nat (6 + Z.to_nat (u16 c (Z.to_nat (entry_offset c r))) * Z.to_nat (u16 c (Z.to_nat (entry_offset c r) + 2)) * Z.to_nat (u16 c (Z.to_nat (entry_offset c r) + 4)))).
    { rewrite Nat2Z.inj_add, !Nat2Z.inj_mul, !Z2Nat.id by lia. lia. }
    rewrite E in Hn. lia.
  - rewrite (offset_app c e Li), (entry_type_app c e) in Hn by (try apply (Hentry c Li); lia). rewrite (entry_type_app c e) in Tq by (apply (Hentry c Li); lia).
    destruct (metadata_inv en c _ _ _ ltac:(rewrite placed_names; apply listed_nodup; exact Dc) HM1) as (_ & I2 & _).
    destruct (I2 (entry_name en c q) (entry_type c q) (entry_size c q) (entry_offset c q)) as (_ & _ & X); [apply placed_in; exists q; split; [lia|reflexivity]|exact Tq|]. lia.
Qed.
(** bytes behind the blocks do not matter *)
Theorem C75_opd_trailing : forall pd en im (b e : bytes) s l, is_file (b ++ e) -> names_distinct en b -> read_opd pd en im (opened b) = Ok (s, l) ->
  (forall q, (1 <= q < entries b)%nat -> 0 <= entry_size b q /\ entry_offset b q + entry_size b q <= Z.of_nat (length b)) ->
  read_opd pd en im (opened (b ++ e)) = Ok (s, l).
Proof.
  intros pd en im b e s l Hf D H Hin. assert (Hb : is_file b) by (apply Forall_app in Hf; apply Hf).
  apply read_opd_distinct in H as [Hd H]; [|exact D]. pose proof (dir_inside en b Hd) as Li.
  apply body_iff in H; [|exact Hb|exact D]. destruct H as (r & md & wl & mult & px & aspect & Hr & En & T & Ho & A & HL & HM & HT & W & Mu & P & As & Iz & ->).
  assert (D' : names_distinct en (b ++ e)) by (apply (distinct_app b e Li); exact D).
  apply read_opd_distinct; [exact D'|]. split; [apply (dir_app b e Li); exact Hd|]. apply body_iff; [exact Hf|exact D'|].
  assert (HM' : opd_metadata en (placed en b 1 (entries b - 1)) {| contents := (b ++ e)%list; pos := entry_at (1 + (entries (b ++ e) - 1)) |} = Ok md).
  { rewrite <- HM. apply metadata_app; [exact Li|]. intros k t sz off Hi. apply placed_in in Hi as (q & Hq & E). injection E as -> -> -> ->. apply Hin. lia. }
  assert (A6 : forall q, array_ok b (entry_size b q) (Z.to_nat (entry_offset b q)) -> (Z.to_nat (entry_offset b q) + 6 <= length b)%nat) by (intros q (_ & _ & X); lia).
  exists r, md, wl, mult, px, aspect. rewrite (entries_app b e), (entry_name_app b e), (entry_type_app b e), (entry_size_app b e), (offset_app b e Li) by (try apply (Hentry b Li); lia).
  split; [exact Hr|]. split; [exact En|]. split; [exact T|]. split; [exact Ho|]. cbv zeta. split; [apply array_ok_app; auto|]. split.
  { unfold layer_of in *. destruct im; [|exact HL]. rewrite (entries_app b e) by lia. destruct HL as [(q & Hq & Eq & Tq & Oq & Aq & El)|[Nq El]].
    - left. exists q. rewrite (entry_name_app b e), (entry_type_app b e), (entry_size_app b e), (offset_app b e Li) by (try apply (Hentry b Li); lia).
      split; [exact Hq|]. split; [exact Eq|]. split; [exact Tq|]. split; [exact Oq|]. split; [apply array_ok_app; auto|].
      rewrite (array_items_app b e Li (entry_size b q)); auto.
    - right. split; [|exact El]. intros q Hq. rewrite (entry_name_app b e) by (apply (Hentry b Li); lia). apply Nq. exact Hq. }
  split; [rewrite (entries_app b e) in HM' by lia; rewrite <- (placed_app b e Li en) in HM'; rewrite (entries_app b e) in * by lia; exact HM'|].
  split; [exact HT|]. split; [exact W|]. split; [exact Mu|]. split; [exact P|]. split; [exact As|]. split; [exact Iz|].
  rewrite (array_items_app b e Li (entry_size b r)) by auto. rewrite (u16_app' b e) by (pose proof (A6 r A); lia). reflexivity.
Qed.
(** *** which files are accepted *)
Lemma metadata_text en h : forall l md, opd_metadata en l h = Ok md -> forall k x, bget md k = Some (OText x) -> exists s off, In (k, (5, s, off)) l.
Proof.
  induction l as [|[k0 [[t0 s0] off0]] l IH]; intros md H k x G; cbn [opd_metadata] in H; [apply ok_inj in H; subst md; discriminate|].
  destruct (existsb _ _).
  2:{ destruct (IH md H k x G) as (s & off & Hi). exists s, off. right. exact Hi. }
  apply rbind_ok in H as (h1 & _ & H). apply rbind_ok in H as (v & Hv & H). apply rbind_ok in H as (md' & Hm & H). apply ok_inj in H.
  assert (Old : bget md' k = Some (OText x) -> exists s off, In (k, (5, s, off)) ((k0, (t0, s0, off0)) :: l)).
  { intros G'. destruct (IH md' Hm k x G') as (s & off & Hi). exists s, off. right. exact Hi. }
  assert (New : forall w, v = OText w -> t0 = 5).
  { intros w ->. destruct (Z.eqb_spec t0 5); [assumption|]. exfalso. revert Hv. unfold opd_number. destruct (t0 =? 6), (t0 =? 7), (t0 =? 8); repeat match goal with |- context [if ?q then _ else _] => destruct q; try discriminate | |- context [let '(_, _) := ?q in _] => destruct q end. }
  destruct v as [y|[|w ws]].
  - subst md. cbn [bget] in G. destruct (zs_eqb k k0); [discriminate|auto].
  - subst md. auto.
  - subst md. cbn [bget] in G. destruct (zs_eqb k k0) eqn:E; [|auto]. apply zs_eqb_eq in E. subst k0. exists s0, off0. left. rewrite (New (w :: ws) eq_refl). reflexivity.
Qed.
Lemma number_ok t size b o : number_type t -> 0 < size -> size mod Z.of_nat (width t) = 0 -> (o + Z.to_nat size <= length b)%nat ->
  exists x, opd_number t size {| contents := b; pos := o |} = Ok (ONum x).
Proof.
  intros T Hs Hm L.
  assert (G : forall n (first : bytes -> f64), (0 < n)%nat -> size mod Z.of_nat n = 0 -> exists x,
    (if size <? 0 then Err (if size <? -1 then ValueError else StructError) else
      let '(b', _) := fread (Z.to_nat size) {| contents := b; pos := o |} in
      if negb (Nat.eqb (length b') (Z.to_nat (size / Z.of_nat n) * n)) then Err StructError else
      if Nat.eqb (length b') 0 then Err IndexError else Ok (ONum (first (firstn n b')))) = Ok (ONum x)).
  { intros n first Hn Hd. rewrite (proj2 (Z.ltb_ge size 0)) by lia. rewrite fread_slice, slice_len by exact L.
    pose proof (Z.div_mod size (Z.of_nat n) ltac:(lia)) as Q. rewrite Hd in Q. pose proof (Z.div_pos size (Z.of_nat n) ltac:(lia) ltac:(lia)) as Qp.
    assert (Q1 : Z.to_nat size = (Z.to_nat (size / Z.of_nat n) * n)%nat) by nia.
    rewrite <- Q1, Nat.eqb_refl. cbn [negb]. rewrite (proj2 (Nat.eqb_neq (Z.to_nat size) 0)) by lia. eexists. reflexivity. }
  unfold opd_number. destruct T as [-> |[-> |[-> | ->]]]; cbn [Z.eqb Pos.eqb].
  - apply (G 2%nat (fun c => f64_of_Z (item_i 2 c))); [lia|exact Hm].
  - apply (G 4%nat (fun c => f64_of_f32 (item_f32 c))); [lia|exact Hm].
  - apply (G 8%nat (fun c => b64_of_bits (unle c))); [lia|exact Hm].
  - apply (G 4%nat (fun c => f64_of_Z (item_i 4 c))); [lia|exact Hm].
Qed.
Definition contents_ok (en : encoding) (b : bytes) (t size off : Z) : Prop :=
  (t = 5 -> 0 <= off /\ 0 <= size /\ off + size <= Z.of_nat (length b) /\ is_ok (decode en (firstn (Z.to_nat size) (skipn (Z.to_nat off) b))) = true) /\
  (number_type t -> 0 <= off /\ 0 < size /\ size mod Z.of_nat (width t) = 0 /\ off + size <= Z.of_nat (length b)).
Lemma metadata_ok en b p : forall l, (forall k t s off, In (k, (t, s, off)) l -> contents_ok en b t s off) ->
  exists md, opd_metadata en l {| contents := b; pos := p |} = Ok md.
Proof.
  induction l as [|[k [[t s] off]] l IH]; intros H; [eexists; reflexivity|]. destruct IH as (md & IH); [intros; eapply H; right; eassumption|].
  cbn [opd_metadata]. destruct (existsb _ _) eqn:T; [|eauto]. destruct (H k t s off (or_introl eq_refl)) as [H5 Hn].
  unfold seek_to, fseek. cbn [contents]. destruct (Z.eqb_spec t 5) as [E|E].
  - destruct (H5 E) as (Ho & Hs & Hl & Hd). rewrite (proj2 (Z.ltb_ge off 0)) by lia. cbn [rbind]. unfold opd_text.
    rewrite (proj2 (Z.ltb_ge s (-1))), (proj2 (Z.eqb_neq s (-1))), fread_slice by lia. unfold slice. destruct (decode en _); [|discriminate].
    cbn [rmap rbind]. rewrite IH. eexists. reflexivity.
  - assert (Nt : number_type t) by (cbn [existsb] in T; unfold number_type; lia). destruct (Hn Nt) as (Ho & Hs & Hm & Hl).
    rewrite (proj2 (Z.ltb_ge off 0)) by lia. cbn [rbind]. destruct (number_ok t s b (Z.to_nat off) Nt Hs Hm ltac:(lia)) as (x & ->). cbn [rbind]. rewrite IH. eexists. reflexivity.
Qed.
Theorem C74_opd_reads : forall (pd : pystr -> res unit) en (b : bytes) r, is_file b -> names_distinct en b -> (forall d, pd d = Ok tt) ->
  firstn 11 b = [1; 0] ++ str "Directory" -> entry_name en b 0 = str "Directory" ->
  (forall k, (k < entries b)%nat -> (entry_at (S k) <= length b)%nat /\ is_ok (decode en (firstn 16 (skipn (entry_at k) b))) = true /\ In (entry_type b k) [0; 1; 3; 5; 6; 7; 8; 12]) ->
  (1 <= r < entries b)%nat -> entry_name en b r = str "RAW_DATA" -> entry_type b r = 3 -> 0 <= entry_offset b r ->
  (let o := Z.to_nat (entry_offset b r) in let n := (Z.to_nat (u16 b o) * Z.to_nat (u16 b (o + 2)) * Z.to_nat (u16 b (o + 4)))%nat in
   In (u16 b (o + 4)) [1; 2; 4] /\ entry_size b r = 6 + Z.of_nat n /\ (o + 6 + n <= length b)%nat) ->
  (forall k, (1 <= k < entries b)%nat -> contents_ok en b (entry_type b k) (entry_size b k) (entry_offset b k)) ->
  (forall k, (1 <= k < entries b)%nat -> In (entry_name en b k) [str "Wavelength"; str "Mult"; str "Pixel_size"; str "Aspect"] -> entry_type b k <> 5) ->
  (forall k, (1 <= k < entries b)%nat -> In (entry_name en b k) [str "Date"; str "Time"] -> ~ number_type (entry_type b k)) ->
  (forall x, labelled en b "Mult" x -> is_zero x = false) ->
  exists s, read_opd pd en false (opened b) = Ok (s, []).
Proof.
  intros pd en b r Hf D Hpd M N0 Hent Hr En T Ho A Hc Hlab Hdate Hmult.
  assert (Hp : (0 < entries b)%nat) by lia.
  assert (Hd : dir_ok en b).
  { split; [exact M|]. split; [exact N0|]. intros k Hk. destruct (Hent k ltac:(lia)) as (L & Dc & Ty). split; [unfold entry_at in *; lia|]. split; [exact Dc|].
    unfold types_ok, block_types. cbn [In] in Ty. cbn [existsb]. lia. }
  destruct (metadata_ok en b (entry_at (1 + (entries b - 1))) (placed en b 1 (entries b - 1))) as (md & HM).
  { intros k t s off Hi. apply placed_in in Hi as (q & Hq & E). injection E as -> -> -> ->. apply Hc. lia. }
  assert (Lab : forall nm, In (str nm) [str "Wavelength"; str "Mult"; str "Pixel_size"; str "Aspect"] -> exists x, opd_label md nm = Ok x).
  { intros nm Hi. unfold opd_label. destruct (bget md (str nm)) as [[x|x]|] eqn:G; [eauto| |eauto].
    apply (metadata_text _ _ _ _ HM) in G as (s & off & Hp'). apply placed_in in Hp' as (q & Hq & E). injection E as E1 E2 _ _. exfalso.
    apply (Hlab q); [lia|rewrite <- E1; exact Hi|congruence]. }
  destruct (Lab "Wavelength"%string) as (wl & W); [cbn [In]; auto|]. destruct (Lab "Mult"%string) as (mult & Mu); [cbn [In]; auto|].
  destruct (Lab "Pixel_size"%string) as (px & P); [cbn [In]; auto|]. destruct (Lab "Aspect"%string) as (aspect & As); [cbn [In]; auto 6|].
  assert (Tm : opd_timestamp pd md = Ok tt).
  { assert (Nn : forall nm x, In (str nm) [str "Date"; str "Time"] -> bget md (str nm) <> Some (ONum x)).
    { intros nm x Hi G. destruct (metadata_inv en b _ _ _ ltac:(rewrite placed_names; apply listed_nodup; exact D) HM) as (I1 & _ & I3).
      pose proof (I1 _ _ G) as Hk. apply in_map_iff in Hk as ([k [[t s] off]] & E & Hk). cbn [fst] in E. subst k.
      assert (Hk' := Hk). apply placed_in in Hk' as (q & Hq & E). injection E as E1 E2 _ _. apply (I3 _ _ _ _ Hk) with (x := x); [|exact G].
      rewrite E2. apply Hdate; [lia|rewrite <- E1; exact Hi]. }
    unfold opd_timestamp. destruct (bget md (str "Date")) as [[x|x]|] eqn:G1; [exfalso; apply (Nn "Date"%string x); [cbn [In]; auto|exact G1]| |reflexivity].
    destruct (bget md (str "Time")) as [[y|y]|] eqn:G2; [exfalso; apply (Nn "Time"%string y); [cbn [In]; auto|exact G2]|apply Hpd|reflexivity]. }
  eexists. apply read_opd_distinct; [exact D|]. split; [exact Hd|]. apply body_iff; [exact Hf|exact D|].
  exists r, md, wl, mult, px, aspect. split; [exact Hr|]. split; [exact En|]. split; [exact T|]. split; [exact Ho|]. cbv zeta. split.
  { cbv zeta in A. destruct A as (K & Q & L). pose proof (uint_range 2 b (Z.to_nat (entry_offset b r)) Hf) as N1. pose proof (uint_range 2 b (Z.to_nat (entry_offset b r) + 2) Hf) as N2.
    fold (u16 b (Z.to_nat (entry_offset b r))) in N1. fold (u16 b (Z.to_nat (entry_offset b r) + 2)) in N2. cbn [In] in K.
    split; [lia|]. split; [|exact L]. rewrite Q, !Nat2Z.inj_mul, !Z2Nat.id by lia. lia. }
  split; [reflexivity|]. split; [exact HM|]. split; [exact Tm|]. split; [exact W|]. split; [exact Mu|]. split; [exact P|]. split; [exact As|].
  split; [|reflexivity]. apply Hmult. eapply label_inv; eauto.
Qed.
