(** Lemmas about reading Digital Surf objects. *)
From Coq Require Import String Ascii ZArith Lia Bool Reals Lra.
From Coq Require Import List.
From Flocq Require Import Core.Raux Core.Defs Core.Zaux IEEE754.BinarySingleNaN IEEE754.Binary IEEE754.Bits.
From Verif Require Import Base ModelBytes SpecBytes ProofBytes PropsLayout PropsMagic PropsFits ModelUnits ModelSur ModelFormats ModelReaders SpecReaders ProofReaders ModelSurLayers.
Import ListNotations.
Local Open Scope Z_scope.

(** a text field: [n] bytes at offset [o], decoded, without trailing blanks and NULs *)
Definition text_at (en : encoding) (b : bytes) (o n : nat) (s : pystr) : Prop :=
  exists t, decode en (slice o n b) = Ok t /\ rstrip blank0 t = s.
(** a signed integer of w bytes *)
Definition sint (w : nat) (b : bytes) (o : nat) : Z := two_compl (8 * Z.of_nat w) (uint w b o).

(** ** compressed data: a count, the directory (raw length, zipped length), the streams *)
Definition zipped (b : bytes) (o k : nat) : Z := u32 b (o + 8 + 8 * k).
Definition unzipped (b : bytes) (o k : nat) : Z := u32 b (o + 4 + 8 * k).
Fixpoint zsum (f : nat -> Z) (n : nat) : Z := match n with O => 0 | S n' => zsum f n' + f n' end.
(** where stream [k] starts *)
Definition stream_at (b : bytes) (o k : nat) : nat := (o + 4 + 8 * Z.to_nat (u32 b o) + Z.to_nat (zsum (zipped b o) k))%nat.
Definition inflates (z : zlib) (b : bytes) (o : nat) (body : bytes) : Prop :=
  exists parts, length parts = Z.to_nat (u32 b o) /\ body = concat parts /\
    forall k, (k < length parts)%nat ->
      decompress z (slice (stream_at b o k) (Z.to_nat (zipped b o k)) b) = Ok (nth k parts []) /\
      zlen (nth k parts []) = unzipped b o k.

Lemma unpack_I b o : (o + 4 <= length b)%nat -> unpack fmt_I (slice o 4 b) = Ok (VInt (u32 b o)).
Proof. intros L. unfold unpack. cbn [calcsize fmt_I]. rewrite slice_len by exact L. cbn [Nat.eqb]. rewrite unle_slice by exact L. reflexivity. Qed.
Lemma unpack_I_inv b o v : unpack fmt_I (slice o 4 b) = Ok v -> (o + 4 <= length b)%nat /\ v = VInt (u32 b o).
Proof.
  intros H. assert (L : (o + 4 <= length b)%nat).
  { unfold unpack in H. cbn [calcsize fmt_I] in H. rewrite slice_eqb in H by lia. destruct (Nat.leb_spec (o + 4) (length b)); [assumption|discriminate]. }
  split; [exact L|]. rewrite unpack_I in H by exact L. apply ok_inj in H. auto.
Qed.
Lemma firstn_slice o n k b : (k <= n)%nat -> firstn k (slice o n b) = slice o k b.
Proof. intros H. unfold slice. rewrite firstn_firstn, Nat.min_l by exact H. reflexivity. Qed.
Lemma skipn_slice o n k b : skipn k (slice o n b) = slice (o + k) (n - k) b.
Proof. unfold slice. rewrite skipn_firstn_comm. f_equal. revert o. induction b as [|x b IH]; intros [|o]; cbn; rewrite ?skipn_nil; auto. Qed.

Lemma directories_inv b : forall n p l h, read_directories n {| contents := b; pos := p |} = Ok (l, h) ->
  l = map (fun k => (u32 b (p + 8 * k), u32 b (p + 4 + 8 * k))) (seq 0 n) /\ h = {| contents := b; pos := p + 8 * n |} /\ (n = 0%nat \/ p + 8 * n <= length b)%nat.
Proof.
  induction n as [|n IH]; intros p l h H; cbn [read_directories] in H.
  - apply ok_inj in H. injection H as <- <-. rewrite Nat.add_0_r. auto.
  - rewrite fread_slice in H. rewrite firstn_slice, skipn_slice in H by lia. change (8 - 4)%nat with 4%nat in H.
    apply rbind_ok in H as (a & H1 & H). apply unpack_I_inv in H1 as [L1 ->].
    apply rbind_ok in H as (c & H2 & H). apply unpack_I_inv in H2 as [L2 ->].
    apply rmap_ok in H as ([l' h'] & H & E). rewrite slice_len in H by lia. apply IH in H as (-> & -> & L3).
    injection E as -> ->. split; [|split].
    + cbn [seq map]. rewrite <- seq_shift, map_map. f_equal; [f_equal; f_equal; lia|].
      apply map_ext. intros k. f_equal; f_equal; lia.
    + f_equal. lia.
    + lia.
Qed.
Lemma directories_ok b : forall n p, (p + 8 * n <= length b)%nat -> read_directories n {| contents := b; pos := p |} =
  Ok (map (fun k => (u32 b (p + 8 * k), u32 b (p + 4 + 8 * k))) (seq 0 n), {| contents := b; pos := p + 8 * n |}).
Proof.
  induction n as [|n IH]; intros p L; cbn [read_directories].
  - rewrite Nat.add_0_r. reflexivity.
  - rewrite fread_slice, firstn_slice, skipn_slice by lia. change (8 - 4)%nat with 4%nat.
    rewrite !unpack_I by lia. cbn [rbind]. rewrite slice_len by lia. rewrite IH by lia. cbn [rmap]. f_equal. f_equal.
    + cbn [seq map]. rewrite <- seq_shift, map_map. f_equal; [f_equal; f_equal; lia|].
      apply map_ext. intros k. f_equal; f_equal; lia.
    + f_equal. lia.
Qed.
(** the position in the file and the position meant, which differ only behind the end of the file *)
Definition at_pos (b : bytes) (p o : nat) : Prop := p = o \/ (length b <= p /\ length b <= o)%nat.
Lemma slice_end o n b : (length b <= o)%nat -> slice o n b = [].
Proof. intros H. unfold slice. rewrite skipn_all2 by exact H. apply firstn_nil. Qed.
Lemma at_pos_slice b p o n : at_pos b p o -> slice p n b = slice o n b.
Proof. intros [-> |[H1 H2]]; [reflexivity|]. rewrite !slice_end by assumption. reflexivity. Qed.
Lemma at_pos_next b p o n : at_pos b p o -> at_pos b (p + length (slice p n b)) (o + n).
Proof.
  intros [-> |[H1 H2]]; unfold at_pos.
  - rewrite slice_length. destruct (Nat.min_spec n (length b - o)) as [[? ->]|[? ->]]; lia.
  - right. lia.
Qed.
Lemma zsum_shift f n : zsum f (S n) = f 0%nat + zsum (fun j => f (S j)) n.
Proof. induction n as [|n IH]; [cbn; lia|]. change (zsum f (S (S n))) with (zsum f (S n) + f (S n)). rewrite IH. cbn [zsum]. lia. Qed.
Lemma zsum_ext f g n : (forall k, (k < n)%nat -> f k = g k) -> zsum f n = zsum g n.
Proof. induction n as [|n IH]; intros H; [reflexivity|]. cbn [zsum]. rewrite IH, H by auto. reflexivity. Qed.
Lemma zsum_nonneg f n : (forall k, (k < n)%nat -> 0 <= f k) -> 0 <= zsum f n.
Proof. induction n as [|n IH]; intros H; [cbn; lia|]. cbn [zsum]. pose proof (H n). specialize (IH (fun k L => H k (Nat.lt_lt_succ_r _ _ L))). lia. Qed.
Lemma zsum_mono f n k : (k <= n)%nat -> (forall k, (k < n)%nat -> 0 <= f k) -> zsum f k <= zsum f n.
Proof. intros H. induction H as [|n H IH]; intros F; [lia|]. cbn [zsum]. pose proof (F n). assert (zsum f k <= zsum f n) by (apply IH; auto). lia. Qed.

Lemma streams_iff z b : forall (dirs : list (Z * Z)) p o, Forall (fun d => 0 <= snd d) dirs -> at_pos b p o ->
  (forall body h, read_streams z dirs {| contents := b; pos := p |} = Ok (body, h) ->
    contents h = b /\ at_pos b (pos h) (o + Z.to_nat (zsum (fun j => snd (nth j dirs (0, 0))) (length dirs))) /\
    exists parts, length parts = length dirs /\ body = concat parts /\
    forall k, (k < length dirs)%nat ->
      decompress z (slice (o + Z.to_nat (zsum (fun j => snd (nth j dirs (0, 0))) k)) (Z.to_nat (snd (nth k dirs (0, 0)))) b) = Ok (nth k parts []) /\
      zlen (nth k parts []) = fst (nth k dirs (0, 0))) /\
  (forall parts, length parts = length dirs ->
    (forall k, (k < length dirs)%nat ->
      decompress z (slice (o + Z.to_nat (zsum (fun j => snd (nth j dirs (0, 0))) k)) (Z.to_nat (snd (nth k dirs (0, 0)))) b) = Ok (nth k parts []) /\
      zlen (nth k parts []) = fst (nth k dirs (0, 0))) ->
    exists h, read_streams z dirs {| contents := b; pos := p |} = Ok (concat parts, h) /\ contents h = b /\
      at_pos b (pos h) (o + Z.to_nat (zsum (fun j => snd (nth j dirs (0, 0))) (length dirs)))).
Proof.
  induction dirs as [|[r zp] dirs IH]; intros p o F A.
  - split.
    + intros body h H. cbn in H. apply ok_inj in H. injection H as <- <-. cbn [length zsum contents pos Z.to_nat]. rewrite Nat.add_0_r.
      split; [reflexivity|]. split; [exact A|]. exists []. split; [reflexivity|]. split; [reflexivity|]. intros k Hk. cbn in Hk. lia.
    + intros parts Lp _. destruct parts; [|discriminate]. cbn. eexists. split; [reflexivity|]. cbn [contents pos]. rewrite Nat.add_0_r. auto.
  - inversion F as [|? ? F1 F2]; subst. cbn [snd] in F1. cbn [read_streams]. rewrite fread_slice.
    pose proof (at_pos_next b p o (Z.to_nat zp) A) as A'. rewrite (at_pos_slice b p o (Z.to_nat zp) A) in *.
    destruct (IH _ _ F2 A') as [I1 I2]. clear IH.
    assert (Nn : forall k, (k <= length dirs)%nat -> 0 <= zsum (fun j => snd (nth j dirs (0, 0))) k).
    { intros k Hk. apply zsum_nonneg. intros j Hj. rewrite Forall_forall in F2. apply F2. apply nth_In. lia. }
    assert (Z1 : forall k, (k <= length dirs)%nat -> (o + Z.to_nat (zsum (fun j => snd (nth j ((r, zp) :: dirs) (0%Z, 0%Z))) (S k)) = o + Z.to_nat zp + Z.to_nat (zsum (fun j => snd (nth j dirs (0%Z, 0%Z))) k))%nat).
    { intros k Hk. rewrite zsum_shift. cbn [nth snd]. specialize (Nn k Hk). rewrite Z2Nat.inj_add by lia. lia. }
    split.
    + intros body h H. apply rbind_ok in H as (d & D & H). destruct (Z.eqb_spec (zlen d) r) as [Er|]; [|discriminate].
      cbn [negb] in H. apply rmap_ok in H as ([rest h'] & H & E). injection E as -> ->. apply I1 in H as (C & P & parts & Lp & -> & Q).
      split; [exact C|]. split; [cbn [length]; rewrite Z1 by lia; exact P|].
      exists (d :: parts). split; [cbn; lia|]. split; [reflexivity|]. intros [|k] Hk.
      * cbn [nth snd fst zsum Z.to_nat]. rewrite Nat.add_0_r. auto.
      * rewrite Z1 by (cbn in Hk; lia). cbn [nth]. apply Q. cbn in Hk. lia.
    + intros parts Lp Q. destruct parts as [|d parts]; [discriminate|]. destruct (Q 0%nat ltac:(cbn; lia)) as [Q1 Q2].
      cbn [nth snd fst zsum Z.to_nat] in Q1, Q2. rewrite Nat.add_0_r in Q1. rewrite Q1. cbn [rbind]. rewrite Q2, Z.eqb_refl. cbn [negb].
      destruct (I2 parts ltac:(cbn in Lp; lia)) as (h & H & C & P).
      { intros k Hk. destruct (Q (S k) ltac:(cbn; lia)) as [Q3 Q4]. rewrite Z1 in Q3 by lia. cbn [nth] in Q3, Q4. auto. }
      rewrite H. cbn [rmap]. exists h. split; [reflexivity|]. split; [exact C|]. cbn [length]. rewrite Z1 by lia. exact P.
Qed.
Lemma fold_total (l : list (Z * Z)) : forall a, fold_left (fun a d => a + (8 + snd d)) l a = a + 8 * Z.of_nat (length l) + zsum (fun j => snd (nth j l (0, 0))) (length l).
Proof.
  induction l as [|d l IH]; intros a; [cbn; lia|]. cbn [fold_left]. rewrite IH. cbn [length]. rewrite zsum_shift. cbn [nth]. lia.
Qed.
(** the length of a compressed block according to its directory *)
Definition block_size (b : bytes) (o : nat) : Z := 4 + 8 * u32 b o + zsum (zipped b o) (Z.to_nat (u32 b o)).

Lemma compressed_inv z b p expected body h : is_file b -> read_compressed z expected {| contents := b; pos := p |} = Ok (body, h) ->
  (p + 4 + 8 * Z.to_nat (u32 b p) <= length b)%nat /\ block_size b p = expected /\ inflates z b p body /\ contents h = b /\
  at_pos b (pos h) (stream_at b p (Z.to_nat (u32 b p))).
Proof.
  intros Hf H. unfold read_compressed in H. rewrite fread_slice in H. apply rbind_ok in H as (v & H1 & H).
  apply unpack_I_inv in H1 as [L ->]. rewrite slice_len in H by exact L. apply rbind_ok in H as ([dirs h2] & H1 & H).
  pose proof (u32_nonneg b p Hf) as N. apply directories_inv in H1 as (Ed & -> & L2).
  destruct (negb _) eqn:E; [discriminate|]. apply negb_false_iff, Z.eqb_eq in E. rewrite fold_total in E.
  set (n := Z.to_nat (u32 b p)) in *.
  assert (Ld : length dirs = n) by (rewrite Ed, map_length, seq_length; reflexivity).
  assert (Nd : forall k, (k < n)%nat -> nth k dirs (0, 0) = (unzipped b p k, zipped b p k)).
  { intros k Hk. rewrite Ed. rewrite (nth_indep _ (0, 0) (u32 b (p + 4 + 8 * 0), u32 b (p + 4 + 4 + 8 * 0))) by (rewrite map_length, seq_length; exact Hk).
    rewrite (map_nth (fun k => (u32 b (p + 4 + 8 * k), u32 b (p + 4 + 4 + 8 * k)))), seq_nth by exact Hk. unfold unzipped, zipped. cbn [Nat.add].
    f_equal; f_equal; lia. }
  assert (Zs : forall k, (k <= n)%nat -> zsum (fun j => snd (nth j dirs (0, 0))) k = zsum (zipped b p) k).
  { intros k Hk. apply zsum_ext. intros j Hj. rewrite Nd by lia. reflexivity. }
  assert (F : Forall (fun d => 0 <= snd d) dirs).
  { rewrite Ed. apply Forall_forall. intros d Hd. apply in_map_iff in Hd as (k & <- & _). apply u32_nonneg, Hf. }
  destruct (streams_iff z b dirs (p + 4 + 8 * n) (p + 4 + 8 * n) F (or_introl eq_refl)) as [I1 _].
  destruct (I1 body h H) as (C & P & parts & Lp & Eb & Q). rewrite Ld in *. rewrite Zs in P, E by lia.
  split; [|split; [|split; [|split]]]; auto.
  - lia.
  - unfold block_size. fold n. unfold n in *. lia.
  - exists parts. split; [fold n; lia|]. split; [exact Eb|]. intros k Hk. rewrite Lp in Hk. destruct (Q k Hk) as [Q1 Q2].
    rewrite Nd in Q1, Q2 by lia. rewrite Zs in Q1 by lia. unfold stream_at. fold n. auto.
Qed.
Lemma compressed_ok z b p body : is_file b -> (p + 4 + 8 * Z.to_nat (u32 b p) <= length b)%nat -> inflates z b p body ->
  exists h, read_compressed z (block_size b p) {| contents := b; pos := p |} = Ok (body, h) /\ contents h = b /\
  at_pos b (pos h) (stream_at b p (Z.to_nat (u32 b p))).
Proof.
  intros Hf L (parts & Lp & -> & Q). unfold read_compressed. rewrite fread_slice, unpack_I by lia. cbn [rbind]. rewrite slice_len by lia.
  pose proof (u32_nonneg b p Hf) as N. set (n := Z.to_nat (u32 b p)) in *. rewrite directories_ok by lia. cbn [rbind].
  set (dirs := map _ (seq 0 n)).
  assert (Ld : length dirs = n) by (unfold dirs; rewrite map_length, seq_length; reflexivity).
  assert (Nd : forall k, (k < n)%nat -> nth k dirs (0, 0) = (unzipped b p k, zipped b p k)).
  { intros k Hk. unfold dirs. rewrite (nth_indep _ (0, 0) (u32 b (p + 4 + 8 * 0), u32 b (p + 4 + 4 + 8 * 0))) by (rewrite map_length, seq_length; exact Hk).
    rewrite (map_nth (fun k => (u32 b (p + 4 + 8 * k), u32 b (p + 4 + 4 + 8 * k)))), seq_nth by exact Hk. unfold unzipped, zipped. cbn [Nat.add].
    f_equal; f_equal; lia. }
  assert (Zs : forall k, (k <= n)%nat -> zsum (fun j => snd (nth j dirs (0, 0))) k = zsum (zipped b p) k).
  { intros k Hk. apply zsum_ext. intros j Hj. rewrite Nd by lia. reflexivity. }
  assert (F : Forall (fun d => 0 <= snd d) dirs).
  { apply Forall_forall. intros d Hd. apply in_map_iff in Hd as (k & <- & _). apply u32_nonneg, Hf. }
  clearbody dirs. rewrite fold_total, Ld, Zs by lia.
  assert (E : 4 + 8 * Z.of_nat n + zsum (zipped b p) n = block_size b p) by (unfold block_size; fold n; unfold n; lia).
  rewrite E, Z.eqb_refl. cbn [negb].
  destruct (streams_iff z b dirs (p + 4 + 8 * n) (p + 4 + 8 * n) F (or_introl eq_refl)) as [_ I2].
  destruct (I2 parts) as (h & H & C & P).
  - lia.
  - rewrite Ld. intros k Hk. destruct (Q k ltac:(lia)) as [Q1 Q2]. rewrite Nd, Zs by lia. unfold stream_at in Q1. fold n in Q1. auto.
  - exists h. split; [exact H|]. split; [exact C|]. rewrite Ld, Zs in P by lia. exact P.
Qed.

(** ** one object: header, comment, private zone, points *)
Definition data_at (b : bytes) (p : nat) : nat := (p + 512 + Z.to_nat (i16 b (p + 334)) + Z.to_nat (i16 b (p + 336)))%nat.
Definition width_is (b : bytes) (p w : nat) : Prop := (i16 b (p + 98) = 16 /\ w = 2%nat) \/ (i16 b (p + 98) = 32 /\ w = 4%nat).
(** at offset [p] lies an object of ny rows of nx integers v i j, and the next object starts at [q] *)
Definition sur_object (z : zlib) (en : encoding) (b : bytes) (p ny nx : nat) (v : nat -> nat -> Z) (q : nat) : Prop :=
  (p + 512 <= length b)%nat /\ i16 b (p + 16) = 1 /\ i32 b (p + 112) = Z.of_nat ny /\ i32 b (p + 108) = Z.of_nat nx /\
  exists w, width_is b p w /\
    ((text_at en b p 12 (str "DIGITAL SURF") /\ (data_at b p + ny * nx * w <= length b)%nat /\ q = (data_at b p + ny * nx * w)%nat /\
      forall i j, (i < ny)%nat -> (j < nx)%nat -> v i j = sint w b (data_at b p + (i * nx + j) * w)) \/
     (text_at en b p 12 (str "DSCOMPRESSED") /\ exists body, inflates z b (data_at b p) body /\ (data_at b p + 4 + 8 * Z.to_nat (u32 b (data_at b p)) <= length b)%nat /\
      block_size b (data_at b p) = u32 b (p + 324) /\ length body = (ny * nx * w)%nat /\
      at_pos b q (stream_at b (data_at b p) (Z.to_nat (u32 b (data_at b p)))) /\
      forall i j, (i < ny)%nat -> (j < nx)%nat -> v i j = sint w body ((i * nx + j) * w))).

Lemma hint_ext d e k v : hint d k = Ok v -> hint (d ++ e) k = Ok v.
Proof. unfold hint, dkey. destruct (dget d k) eqn:E; [|discriminate]. rewrite (dget_app_some d e k _ E). auto. Qed.
Lemma hflt_ext d e k v : hflt d k = Ok v -> hflt (d ++ e) k = Ok v.
Proof. unfold hflt, dkey. destruct (dget d k) eqn:E; [|discriminate]. rewrite (dget_app_some d e k _ E). auto. Qed.
Lemma hstr_ext d e k v : hstr d k = Ok v -> hstr (d ++ e) k = Ok v.
Proof. unfold hstr, dkey. destruct (dget d k) eqn:E; [|discriminate]. rewrite (dget_app_some d e k _ E). auto. Qed.
Lemma values_field en b name : forall l p o f, values_ok en b p l = true -> locate l name = Some (o, f) ->
  field_ok en f (slice (p + o) (calcsize f) b) = true.
Proof.
  induction l as [|e l IH]; intros p o f V H; [discriminate|].
  destruct e as [n|k [g|prev|g rd wr]]; cbn [locate values_ok] in *; try discriminate.
  - destruct (locate l name) as [[o' f']|]; [|discriminate]. cbn in H. injection H as <- <-. rewrite Nat.add_assoc. apply IH; auto.
  - apply andb_prop in V as [V1 V]. apply andb_prop in V1 as [_ V1]. destruct (String.eqb name k).
    + injection H as <- <-. rewrite Nat.add_0_r. exact V1.
    + destruct (locate l name) as [[o' f']|]; [|discriminate]. cbn in H. injection H as <- <-. rewrite Nat.add_assoc. apply IH; auto.
  - apply andb_prop in V as [_ V]. destruct (String.eqb name k); [discriminate|].
    destruct (locate l name) as [[o' f']|]; [|discriminate]. cbn in H. injection H as <- <-. rewrite Nat.add_assoc. apply IH; auto.
Qed.
Lemma hstr_at en b p l name o n s : values_ok en b p l = true -> locate l name = Some (o, FStr n) ->
  (hstr (values en b p l) name = Ok s <-> text_at en b (p + o) n s).
Proof.
  intros V H. pose proof (values_field en b name l p o _ V H) as F. destruct (locate_spec en b name l p o _ H) as [D _].
  unfold hstr, dkey, text_at. rewrite D. cbn [field rbind calcsize field_ok] in *. destruct (decode en (slice (p + o) n b)) as [t|]; [|discriminate].
  split.
  - intros E. apply ok_inj in E. exists t. auto.
  - intros (t' & E & Er). apply ok_inj in E. subst. reflexivity.
Qed.
Lemma fread_z_slice n b p : 0 <= n -> fread_z n {| contents := b; pos := p |} = Ok (slice p (Z.to_nat n) b, {| contents := b; pos := p + length (slice p (Z.to_nat n) b) |}).
Proof. intros H. unfold fread_z. destruct (Z.eqb_spec n (-1)); [lia|]. destruct (Z.ltb_spec n 0); [lia|]. rewrite fread_slice. reflexivity. Qed.

Lemma int_array_inv w body l : (0 < w)%nat -> int_array w body = Ok l ->
  length body = (length l * w)%nat /\ forall k, (k < length l)%nat -> nth k l 0 = sint w body (k * w).
Proof.
  intros Hw H. unfold int_array in H. apply rmap_ok in H as (c & H & ->). unfold frombuffer in H.
  destruct (Nat.eqb_spec (length body mod w) 0) as [M|]; [|discriminate]. apply ok_inj in H. subst c.
  rewrite map_length, chunks_length. assert (L : length body = (length body / w * w)%nat).
  { pose proof (Nat.div_mod (length body) w ltac:(lia)). lia. }
  split; [exact L|]. intros k Hk. rewrite (nth_indep _ 0 (to_signed w (unle []))) by (rewrite map_length, chunks_length; exact Hk).
  rewrite (map_nth (fun c => to_signed w (unle c))). rewrite chunks_nth by exact Hk.
  assert (K : (k * w + w <= length body)%nat) by nia. rewrite unle_slice by exact K. reflexivity.
Qed.
Lemma int_array_ok w body n : (0 < w)%nat -> length body = (n * w)%nat -> exists l, int_array w body = Ok l /\ length l = n.
Proof.
  intros Hw L. unfold int_array, frombuffer. rewrite L, Nat.mod_mul by lia. cbn [Nat.eqb rmap]. eexists. split; [reflexivity|].
  rewrite map_length, chunks_length, Nat.div_mul by lia. reflexivity.
Qed.
Lemma sint_slice w o n body k : (k + w <= n)%nat -> (o + n <= length body)%nat -> sint w (slice o n body) k = sint w body (o + k).
Proof.
  intros H1 H2. unfold sint. f_equal. rewrite <- !unle_slice.
  - rewrite slice_slice by exact H1. reflexivity.
  - lia.
  - rewrite slice_len; lia.
Qed.
(** the fields of the header *)
Section header.
Variables (en : encoding) (b : bytes) (p : nat) (V : values_ok en b p sur_layout = true).
Lemma sur_size : lsize sur_layout = 512%nat. Proof. vm_compute. reflexivity. Qed.
Lemma sur_sized : Forall sized sur_layout. Proof. is_sized. Qed.
Lemma sur_names : NoDup (names sur_layout). Proof. is_distinct. Qed.
Lemma at_version_number : locate sur_layout "version_number" = Some (16%nat, FInt true 2). Proof. vm_compute. reflexivity. Qed.
Lemma get_version_number : hint (values en b p sur_layout) "version_number" = Ok (i16 b (p + 16)).
Proof. exact (hint_s en b p sur_layout "version_number" 16 2 V at_version_number). Qed.
Lemma at_studiable_type : locate sur_layout "studiable_type" = Some (18%nat, FInt true 2). Proof. vm_compute. reflexivity. Qed.
Lemma get_studiable_type : hint (values en b p sur_layout) "studiable_type" = Ok (i16 b (p + 18)).
Proof. exact (hint_s en b p sur_layout "studiable_type" 18 2 V at_studiable_type). Qed.
Lemma at_acquisition_type : locate sur_layout "acquisition_type" = Some (82%nat, FInt true 2). Proof. vm_compute. reflexivity. Qed.
Lemma get_acquisition_type : hint (values en b p sur_layout) "acquisition_type" = Ok (i16 b (p + 82)).
Proof. exact (hint_s en b p sur_layout "acquisition_type" 82 2 V at_acquisition_type). Qed.
Lemma at_length_comment : locate sur_layout "length_comment" = Some (334%nat, FInt true 2). Proof. vm_compute. reflexivity. Qed.
Lemma get_length_comment : hint (values en b p sur_layout) "length_comment" = Ok (i16 b (p + 334)).
Proof. exact (hint_s en b p sur_layout "length_comment" 334 2 V at_length_comment). Qed.
Lemma at_length_private : locate sur_layout "length_private" = Some (336%nat, FInt true 2). Proof. vm_compute. reflexivity. Qed.
Lemma get_length_private : hint (values en b p sur_layout) "length_private" = Ok (i16 b (p + 336)).
Proof. exact (hint_s en b p sur_layout "length_private" 336 2 V at_length_private). Qed.
Lemma at_bits_per_point : locate sur_layout "bits_per_point" = Some (98%nat, FInt true 2). Proof. vm_compute. reflexivity. Qed.
Lemma get_bits_per_point : hint (values en b p sur_layout) "bits_per_point" = Ok (i16 b (p + 98)).
Proof. exact (hint_s en b p sur_layout "bits_per_point" 98 2 V at_bits_per_point). Qed.
Lemma at_n_lines : locate sur_layout "n_lines" = Some (112%nat, FInt true 4). Proof. vm_compute. reflexivity. Qed.
Lemma get_n_lines : hint (values en b p sur_layout) "n_lines" = Ok (i32 b (p + 112)).
Proof. exact (hint_s en b p sur_layout "n_lines" 112 4 V at_n_lines). Qed.
Lemma at_n_points_per_line : locate sur_layout "n_points_per_line" = Some (108%nat, FInt true 4). Proof. vm_compute. reflexivity. Qed.
Lemma get_n_points_per_line : hint (values en b p sur_layout) "n_points_per_line" = Ok (i32 b (p + 108)).
Proof. exact (hint_s en b p sur_layout "n_points_per_line" 108 4 V at_n_points_per_line). Qed.
Lemma at_n_total_points : locate sur_layout "n_total_points" = Some (116%nat, FInt true 4). Proof. vm_compute. reflexivity. Qed.
Lemma get_n_total_points : hint (values en b p sur_layout) "n_total_points" = Ok (i32 b (p + 116)).
Proof. exact (hint_s en b p sur_layout "n_total_points" 116 4 V at_n_total_points). Qed.
Lemma at_compressed_data_size : locate sur_layout "compressed_data_size" = Some (324%nat, FInt false 4). Proof. vm_compute. reflexivity. Qed.
Lemma get_compressed_data_size : hint (values en b p sur_layout) "compressed_data_size" = Ok (u32 b (p + 324)).
Proof. exact (hint_u en b p sur_layout "compressed_data_size" 324 4 V at_compressed_data_size). Qed.
Lemma at_n_objects : locate sur_layout "n_objects" = Some (14%nat, FInt true 2). Proof. vm_compute. reflexivity. Qed.
Lemma get_n_objects : hint (values en b p sur_layout) "n_objects" = Ok (i16 b (p + 14)).
Proof. exact (hint_s en b p sur_layout "n_objects" 14 2 V at_n_objects). Qed.
Lemma at_non_measured_points : locate sur_layout "non_measured_points" = Some (86%nat, FInt true 2). Proof. vm_compute. reflexivity. Qed.
Lemma get_non_measured_points : hint (values en b p sur_layout) "non_measured_points" = Ok (i16 b (p + 86)).
Proof. exact (hint_s en b p sur_layout "non_measured_points" 86 2 V at_non_measured_points). Qed.
Lemma at_min_point : locate sur_layout "min_point" = Some (100%nat, FInt true 4). Proof. vm_compute. reflexivity. Qed.
Lemma get_min_point : hint (values en b p sur_layout) "min_point" = Ok (i32 b (p + 100)).
Proof. exact (hint_s en b p sur_layout "min_point" 100 4 V at_min_point). Qed.
Lemma at_spacing_x : locate sur_layout "spacing_x" = Some (120%nat, FF32). Proof. vm_compute. reflexivity. Qed.
Lemma get_spacing_x : hflt (values en b p sur_layout) "spacing_x" = Ok (single_at b (p + 120)).
Proof. exact (hflt_32 en b p sur_layout "spacing_x" 120 V at_spacing_x). Qed.
Lemma at_spacing_y : locate sur_layout "spacing_y" = Some (124%nat, FF32). Proof. vm_compute. reflexivity. Qed.
Lemma get_spacing_y : hflt (values en b p sur_layout) "spacing_y" = Ok (single_at b (p + 124)).
Proof. exact (hflt_32 en b p sur_layout "spacing_y" 124 V at_spacing_y). Qed.
Lemma at_spacing_z : locate sur_layout "spacing_z" = Some (128%nat, FF32). Proof. vm_compute. reflexivity. Qed.
Lemma get_spacing_z : hflt (values en b p sur_layout) "spacing_z" = Ok (single_at b (p + 128)).
Proof. exact (hflt_32 en b p sur_layout "spacing_z" 128 V at_spacing_z). Qed.
Lemma at_offset_z : locate sur_layout "offset_z" = Some (474%nat, FF32). Proof. vm_compute. reflexivity. Qed.
Lemma get_offset_z : hflt (values en b p sur_layout) "offset_z" = Ok (single_at b (p + 474)).
Proof. exact (hflt_32 en b p sur_layout "offset_z" 474 V at_offset_z). Qed.
Lemma at_name_object : locate sur_layout "name_object" = Some (20%nat, FStr 30). Proof. vm_compute. reflexivity. Qed.
Lemma get_name_object s : hstr (values en b p sur_layout) "name_object" = Ok s <-> text_at en b (p + 20) 30 s.
Proof. exact (hstr_at en b p sur_layout "name_object" 20 30 s V at_name_object). Qed.
Lemma at_name_operator : locate sur_layout "name_operator" = Some (50%nat, FStr 30). Proof. vm_compute. reflexivity. Qed.
Lemma get_name_operator s : hstr (values en b p sur_layout) "name_operator" = Ok s <-> text_at en b (p + 50) 30 s.
Proof. exact (hstr_at en b p sur_layout "name_operator" 50 30 s V at_name_operator). Qed.
Lemma at_unit_step_x : locate sur_layout "unit_step_x" = Some (180%nat, FStr 16). Proof. vm_compute. reflexivity. Qed.
Lemma get_unit_step_x s : hstr (values en b p sur_layout) "unit_step_x" = Ok s <-> text_at en b (p + 180) 16 s.
Proof. exact (hstr_at en b p sur_layout "unit_step_x" 180 16 s V at_unit_step_x). Qed.
Lemma at_unit_step_y : locate sur_layout "unit_step_y" = Some (196%nat, FStr 16). Proof. vm_compute. reflexivity. Qed.
Lemma get_unit_step_y s : hstr (values en b p sur_layout) "unit_step_y" = Ok s <-> text_at en b (p + 196) 16 s.
Proof. exact (hstr_at en b p sur_layout "unit_step_y" 196 16 s V at_unit_step_y). Qed.
Lemma at_unit_step_z : locate sur_layout "unit_step_z" = Some (212%nat, FStr 16). Proof. vm_compute. reflexivity. Qed.
Lemma get_unit_step_z s : hstr (values en b p sur_layout) "unit_step_z" = Ok s <-> text_at en b (p + 212) 16 s.
Proof. exact (hstr_at en b p sur_layout "unit_step_z" 212 16 s V at_unit_step_z). Qed.
Lemma at_code : locate sur_layout "code" = Some (0%nat, FStr 12). Proof. vm_compute. reflexivity. Qed.
Lemma get_code s : hstr (values en b p sur_layout) "code" = Ok s <-> text_at en b p 12 s.
Proof. rewrite <- (Nat.add_0_r p) at 2. exact (hstr_at en b p sur_layout "code" 0 12 s V at_code). Qed.
Lemma at_end : locate sur_layout "unit_step_t" = Some (499%nat, FStr 13). Proof. vm_compute. reflexivity. Qed.
Lemma header_in : (p + 512 <= length b)%nat.
Proof. pose proof (located_in en b p sur_layout "unit_step_t" 499 (FStr 13) V at_end) as L. cbn [calcsize] in L. lia. Qed.
End header.

Local Strategy opaque [values values_ok hint hstr hflt uint i16 i32 sur_layout].
Definition zones (b : bytes) (p : nat) : dict :=
  [("comment"%string, VBytes (slice (p + 512) (Z.to_nat (i16 b (p + 334))) b));
   ("private"%string, VBytes (slice (p + 512 + Z.to_nat (i16 b (p + 334))) (Z.to_nat (i16 b (p + 336))) b))].
Definition known_kind (b : bytes) (p : nat) : Prop := 1 <= i16 b (p + 18) <= 19 /\ 0 <= i16 b (p + 82) <= 10.

Lemma header_inv en b p d h : 0 <= i16 b (p + 334) -> 0 <= i16 b (p + 336) ->
  read_header_zones en {| contents := b; pos := p |} = Ok (d, h) ->
  values_ok en b p sur_layout = true /\ d = (values en b p sur_layout ++ zones b p)%list /\ contents h = b /\ at_pos b (pos h) (data_at b p) /\
  (text_at en b p 12 (str "DIGITAL SURF") \/ text_at en b p 12 (str "DSCOMPRESSED")) /\ i16 b (p + 16) = 1 /\ known_kind b p.
Proof.
  intros N1 N2 H. unfold read_header_zones in H. apply rbind_ok in H as ([d0 h0] & H1 & H).
  apply read_layout_inv in H1 as (V & -> & ->); [|exact sur_sized|exact sur_names]. rewrite sur_size in H.
  apply rbind_ok in H as (code & Hc & H). pose proof (proj1 (get_code _ _ _ V code) Hc) as Tc.
  rewrite (get_version_number _ _ _ V) in H. cbn [rbind] in H.
  destruct (_ || _) eqn:E1 in H; [discriminate|]. apply orb_false_iff in E1 as [E1 E2]. apply negb_false_iff in E1, E2. apply Z.eqb_eq in E2.
  rewrite (get_studiable_type _ _ _ V) in H. cbn [rbind] in H.
  destruct (negb _) eqn:E3 in H; [discriminate|]. apply negb_false_iff, andb_prop in E3 as [E3 E4]. apply Z.leb_le in E3, E4.
  rewrite (get_acquisition_type _ _ _ V) in H. cbn [rbind] in H.
  destruct (negb _) eqn:E5 in H; [discriminate|]. apply negb_false_iff, andb_prop in E5 as [E5 E6]. apply Z.leb_le in E5, E6.
  cbn [pos] in H. replace (p + 512 - p)%nat with 512%nat in H by lia. cbn [Nat.eqb negb] in H.
  rewrite (get_length_comment _ _ _ V) in H. cbn [rbind] in H.
  rewrite fread_z_slice in H by exact N1. cbn [rbind] in H.
  rewrite (get_length_private _ _ _ V) in H. cbn [rbind] in H.
  rewrite fread_z_slice in H by exact N2. cbn [rbind] in H. apply ok_inj in H.
  pose proof (at_pos_next b (p + 512) (p + 512) (Z.to_nat (i16 b (p + 334))) (or_introl eq_refl)) as A1.
  rewrite (at_pos_slice _ _ _ (Z.to_nat (i16 b (p + 336))) A1) in H.
  pose proof (at_pos_next _ _ _ (Z.to_nat (i16 b (p + 336))) A1) as A2. rewrite (at_pos_slice _ _ _ (Z.to_nat (i16 b (p + 336))) A1) in A2.
  split; [exact V|]. assert (Ed := f_equal fst H). assert (Eh := f_equal snd H). cbn [fst snd] in Ed, Eh. subst d h.
  split; [reflexivity|]. split; [reflexivity|]. split; [exact A2|]. split; [|split; [exact E2|split; lia]].
  apply orb_prop in E1 as [E1|E1]; apply zs_eqb_eq in E1; subst code; auto.
Qed.
Lemma header_ok en b p : 0 <= i16 b (p + 334) -> 0 <= i16 b (p + 336) -> values_ok en b p sur_layout = true ->
  (text_at en b p 12 (str "DIGITAL SURF") \/ text_at en b p 12 (str "DSCOMPRESSED")) -> i16 b (p + 16) = 1 -> known_kind b p ->
  exists h, read_header_zones en {| contents := b; pos := p |} = Ok ((values en b p sur_layout ++ zones b p)%list, h) /\ contents h = b /\ at_pos b (pos h) (data_at b p).
Proof.
  intros N1 N2 V T E2 [K1 K2]. unfold read_header_zones.
  rewrite (proj1 (read_layout_values en sur_layout b p sur_sized sur_names) V). cbn [rbind]. rewrite sur_size.
  assert (Tc : exists code, text_at en b p 12 code /\ (zs_eqb code (str "DIGITAL SURF") || zs_eqb code (str "DSCOMPRESSED") = true)).
  { destruct T as [T|T]; eexists; (split; [exact T|reflexivity]). }
  destruct Tc as (code & Tc & Ec). rewrite (proj2 (get_code _ _ _ V code) Tc). cbn [rbind].
  rewrite (get_version_number _ _ _ V). cbn [rbind].
  rewrite E2, Ec. cbn [negb Z.eqb Pos.eqb orb].
  rewrite (get_studiable_type _ _ _ V). cbn [rbind].
  rewrite (proj2 (Z.leb_le 1 (i16 b (p + 18)))), (proj2 (Z.leb_le (i16 b (p + 18)) 19)) by lia. cbn [negb andb].
  rewrite (get_acquisition_type _ _ _ V). cbn [rbind].
  rewrite (proj2 (Z.leb_le 0 (i16 b (p + 82)))), (proj2 (Z.leb_le (i16 b (p + 82)) 10)) by lia. cbn [negb andb pos].
  replace (p + 512 - p)%nat with 512%nat by lia. cbn [Nat.eqb negb].
  rewrite (get_length_comment _ _ _ V). cbn [rbind].
  rewrite fread_z_slice by exact N1. cbn [rbind].
  rewrite (get_length_private _ _ _ V). cbn [rbind].
  rewrite fread_z_slice by exact N2. cbn [rbind].
  pose proof (at_pos_next b (p + 512) (p + 512) (Z.to_nat (i16 b (p + 334))) (or_introl eq_refl)) as A1.
  rewrite (at_pos_slice _ _ _ (Z.to_nat (i16 b (p + 336))) A1).
  pose proof (at_pos_next _ _ _ (Z.to_nat (i16 b (p + 336))) A1) as A2. rewrite (at_pos_slice _ _ _ (Z.to_nat (i16 b (p + 336))) A1) in A2.
  eexists. split; [reflexivity|]. split; [reflexivity|exact A2].
Qed.

Lemma object_inv z en b p d data h : is_file b -> 0 <= i16 b (p + 334) -> 0 <= i16 b (p + 336) -> 0 < i32 b (p + 112) -> 0 < i32 b (p + 108) ->
  read_object z en {| contents := b; pos := p |} = Ok (d, data, h) ->
  values_ok en b p sur_layout = true /\ d = (values en b p sur_layout ++ zones b p)%list /\ known_kind b p /\ contents h = b /\
  exists v, data = grid (Z.to_nat (i32 b (p + 112))) (Z.to_nat (i32 b (p + 108))) v /\
    sur_object z en b p (Z.to_nat (i32 b (p + 112))) (Z.to_nat (i32 b (p + 108))) v (pos h).
Proof.
  intros Hf N1 N2 Ny Nx H. unfold read_object in H. apply rbind_ok in H as ([d0 h1] & H1 & H).
  apply header_inv in H1 as (V & Ed & C1 & A1 & T & E2 & K); [|exact N1|exact N2].
  pose proof (header_in _ _ _ V) as L512.
  subst d0. destruct h1 as [c1 p1]. cbn [contents pos] in C1, A1. subst c1.
  rewrite (hint_ext _ _ _ _ (get_bits_per_point _ _ _ V)) in H. cbn [rbind] in H.
  apply rbind_ok in H as (w & Hw & H).
  assert (W : width_is b p w).
  { destruct (Z.eqb_spec (i16 b (p + 98)) 16); [left; apply ok_inj in Hw; auto|]. destruct (Z.eqb_spec (i16 b (p + 98)) 32); [right; apply ok_inj in Hw; auto|discriminate]. }
  assert (Hw0 : (0 < w)%nat) by (destruct W as [[_ ->]|[_ ->]]; lia). clear Hw.
  rewrite (hint_ext _ _ _ _ (get_n_lines _ _ _ V)) in H. cbn [rbind] in H.
  rewrite (hint_ext _ _ _ _ (get_n_points_per_line _ _ _ V)) in H. cbn [rbind] in H.
  set (ny := Z.to_nat (i32 b (p + 112))) in *. set (nx := Z.to_nat (i32 b (p + 108))) in *.
  assert (Pn : (0 < ny * nx)%nat) by (unfold ny, nx; nia).
  apply rbind_ok in H as (code & Hc & H).
  assert (Tc : text_at en b p 12 code).
  { destruct T as [T|T]; (pose proof (proj2 (get_code _ _ _ V _) T) as Hc'; apply (hstr_ext _ (zones b p)) in Hc'; rewrite Hc in Hc'; apply ok_inj in Hc'; subst code; exact T). }
  apply rbind_ok in H as ([body h2] & Hb & H). apply rbind_ok in H as (l & Hi & H). apply rbind_ok in H as (data' & Hr & H).
  apply ok_inj in H. injection H as Ed Eda Eh. subst d data' h2. split; [exact V|]. split; [reflexivity|]. split; [exact K|].
  unfold reshape_z in Hr. destruct (Z.ltb_spec (i32 b (p + 112)) 0); [lia|]. destruct (Z.ltb_spec (i32 b (p + 108)) 0); [lia|]. cbn [orb] in Hr.
  fold ny nx in Hr. apply (reshape_inv 0) in Hr as [Ll Eg].
  apply int_array_inv in Hi as [Lb Hv]; [|exact Hw0]. rewrite Ll in Lb, Hv.
  assert (I : forall i j, (i < ny)%nat -> (j < nx)%nat -> (i * nx + j < ny * nx)%nat) by (intros; nia).
  assert (Base : (p + 512 <= length b)%nat /\ i16 b (p + 16) = 1 /\ i32 b (p + 112) = Z.of_nat ny /\ i32 b (p + 108) = Z.of_nat nx) by (unfold ny, nx; repeat split; lia).
  assert (C : contents h = b /\ exists v, data = grid ny nx v /\ sur_object z en b p ny nx v (pos h)); [|exact C].
  destruct (zs_eqb code (str "DIGITAL SURF")) eqn:Ec.
  - apply zs_eqb_eq in Ec. subst code.
    rewrite (hint_ext _ _ _ _ (get_n_total_points _ _ _ V)) in Hb. cbn [rbind] in Hb.
    assert (Q : p1 = data_at b p /\ (data_at b p + ny * nx * w <= length b)%nat /\ body = slice (data_at b p) (ny * nx * w) b /\ h = {| contents := b; pos := data_at b p + ny * nx * w |}).
    { assert (Pb : (0 < length body)%nat) by (rewrite Lb; nia).
      destruct (Z.eqb_spec (i32 b (p + 116)) (-1)).
      - apply ok_inj in Hb. unfold fread_all in Hb. cbn [contents pos] in Hb. injection Hb as Eb Eh.
        assert (Lk : length body = (length b - p1)%nat) by (rewrite <- Eb; apply skipn_length).
        assert (Ep : p1 = data_at b p) by (destruct A1 as [A1|A1]; [exact A1|lia]). split; [exact Ep|]. rewrite <- Ep.
        split; [lia|]. split; [|rewrite <- Eh; f_equal; rewrite Eb; lia].
        rewrite <- Eb. unfold slice. rewrite firstn_all2; [reflexivity|]. rewrite skipn_length. lia.
      - assert (Nt : 0 <= i32 b (p + 116) * Z.of_nat w).
        { unfold fread_z in Hb. destruct (Z.eqb_spec (i32 b (p + 116) * Z.of_nat w) (-1)) as [E|].
          - exfalso. destruct W as [[_ ->]|[_ ->]]; lia.
          - destruct (Z.ltb_spec (i32 b (p + 116) * Z.of_nat w) 0); [discriminate|assumption]. }
        rewrite fread_z_slice in Hb by exact Nt. apply ok_inj in Hb.
        pose proof (f_equal fst Hb) as Eb. pose proof (f_equal snd Hb) as Eh. cbn [fst snd] in Eb, Eh. clear Hb.
        set (m := Z.to_nat (i32 b (p + 116) * Z.of_nat w)) in *.
        assert (Lk : length body = Nat.min m (length b - p1)) by (rewrite <- Eb; apply slice_length).
        assert (Ep : p1 = data_at b p) by (destruct A1 as [A1|A1]; [exact A1|lia]). split; [exact Ep|]. rewrite <- Ep.
        split; [lia|]. split; [|rewrite <- Eh, slice_length, <- Lk, Lb; reflexivity].
        rewrite <- Eb. unfold slice. rewrite <- (firstn_all2 (n := length b - p1) (skipn p1 b)) at 1 by (rewrite skipn_length; lia).
        rewrite firstn_firstn, <- Lk, Lb. reflexivity. }
    destruct Q as (Ep & LD & Eb & ->). split; [reflexivity|]. exists (fun i j => nth (i * nx + j) l 0). split; [exact Eg|].
    unfold sur_object. destruct Base as (B1 & B2 & B3 & B4). split; [exact B1|]. split; [exact B2|]. split; [exact B3|]. split; [exact B4|].
    exists w. split; [exact W|]. left. split; [exact Tc|]. split; [exact LD|]. split; [reflexivity|].
    intros i j Hi Hj. specialize (I i j Hi Hj). rewrite Hv by exact I. rewrite Eb. apply sint_slice; [|exact LD]. nia.
  - destruct T as [T|T].
    { exfalso. destruct T as (t & T1 & T2), Tc as (t' & T1' & T2'). rewrite T1 in T1'. apply ok_inj in T1'. subst t'. rewrite T2 in T2'. rewrite <- T2' in Ec. vm_compute in Ec. discriminate. }
    assert (code = str "DSCOMPRESSED").
    { destruct T as (t & T1 & T2), Tc as (t' & T1' & T2'). rewrite T1 in T1'. apply ok_inj in T1'. congruence. }
    subst code. rewrite (hint_ext _ _ _ _ (get_compressed_data_size _ _ _ V)) in Hb. cbn [rbind] in Hb.
    apply compressed_inv in Hb as (LD & Bs & Inf & C & A2); [|exact Hf].
    assert (Ep : p1 = data_at b p) by (destruct A1 as [A1|A1]; [exact A1|lia]). rewrite Ep in *.
    split; [exact C|]. exists (fun i j => nth (i * nx + j) l 0). split; [exact Eg|].
    unfold sur_object. destruct Base as (B1 & B2 & B3 & B4). split; [exact B1|]. split; [exact B2|]. split; [exact B3|]. split; [exact B4|].
    exists w. split; [exact W|]. right. split; [exact Tc|]. exists body. split; [exact Inf|]. split; [exact LD|]. split; [exact Bs|]. split; [exact Lb|]. split; [exact A2|].
    intros i j Hi Hj. rewrite Hv by (apply I; assumption). reflexivity.
Qed.

Lemma slice_D b p1 o n : at_pos b p1 o -> (o + n <= length b)%nat -> slice p1 n b = slice o n b /\ length (slice p1 n b) = n /\ at_pos b (p1 + n) (o + n).
Proof.
  intros A L. pose proof (at_pos_slice b p1 o n A) as E. split; [exact E|]. split; [rewrite E; apply slice_len, L|].
  destruct A as [-> |[A1 A2]]; [left; reflexivity|right; lia].
Qed.
Lemma at_pos_join b p q o : at_pos b p o -> at_pos b q o -> at_pos b p q.
Proof. unfold at_pos. lia. Qed.
Lemma object_ok z en b p ny nx v q : is_file b -> 0 <= i16 b (p + 334) -> 0 <= i16 b (p + 336) -> values_ok en b p sur_layout = true -> known_kind b p ->
  (text_at en b p 12 (str "DIGITAL SURF") -> i32 b (p + 116) = Z.of_nat (ny * nx)) ->
  sur_object z en b p ny nx v q ->
  exists h, read_object z en {| contents := b; pos := p |} = Ok ((values en b p sur_layout ++ zones b p)%list, grid ny nx v, h) /\ contents h = b /\ at_pos b (pos h) q.
Proof.
  intros Hf N1 N2 V K Nt (B1 & B2 & B3 & B4 & w & W & T). unfold read_object.
  destruct (header_ok en b p N1 N2 V) as ([c1 p1] & H1 & C1 & A1); auto; [destruct T as [[T _]|[T _]]; auto|].
  cbn [contents pos] in C1, A1. subst c1. rewrite H1. cbn [rbind].
  rewrite (hint_ext _ _ _ _ (get_bits_per_point _ _ _ V)). cbn [rbind].
  assert (Ew : (if i16 b (p + 98) =? 16 then Ok 2%nat else if i16 b (p + 98) =? 32 then Ok 4%nat else Err KeyError) = Ok w).
  { destruct W as [[-> ->]|[-> ->]]; reflexivity. }
  rewrite Ew. cbn [rbind]. clear Ew. assert (Hw0 : (0 < w)%nat) by (destruct W as [[_ ->]|[_ ->]]; lia).
  rewrite (hint_ext _ _ _ _ (get_n_lines _ _ _ V)). cbn [rbind]. rewrite (hint_ext _ _ _ _ (get_n_points_per_line _ _ _ V)). cbn [rbind].
  assert (R : forall body, length body = (ny * nx * w)%nat -> (forall i j, (i < ny)%nat -> (j < nx)%nat -> v i j = sint w body ((i * nx + j) * w)) ->
    exists l, int_array w body = Ok l /\ reshape_z (i32 b (p + 112)) (i32 b (p + 108)) l = Ok (grid ny nx v)).
  { intros body Lb Hv. destruct (int_array_ok w body (ny * nx) Hw0 Lb) as (l & E & Ll). exists l. split; [exact E|].
    apply int_array_inv in E as [_ E]; [|exact Hw0]. unfold reshape_z. rewrite B3, B4.
    destruct (Z.ltb_spec (Z.of_nat ny) 0); [lia|]. destruct (Z.ltb_spec (Z.of_nat nx) 0); [lia|]. cbn [orb]. rewrite !Nat2Z.id.
    rewrite (reshape_ok 0) by exact Ll. f_equal. apply grid_ext'. intros i j Hi Hj. rewrite Hv by assumption. apply E. nia. }
  destruct T as [(Tc & LD & Eq & Hv)|(Tc & body & Inf & LD & Bs & Lb & Aq & Hv)].
  - rewrite (hstr_ext _ _ _ _ (proj2 (get_code _ _ _ V _) Tc)). cbn [rbind]. rewrite zs_eqb_refl.
    rewrite (hint_ext _ _ _ _ (get_n_total_points _ _ _ V)). cbn [rbind]. rewrite (Nt Tc).
    destruct (Z.eqb_spec (Z.of_nat (ny * nx)) (-1)); [lia|]. rewrite fread_z_slice by nia. cbn [rbind].
    replace (Z.to_nat (Z.of_nat (ny * nx) * Z.of_nat w)) with (ny * nx * w)%nat by (rewrite <- Nat2Z.inj_mul, Nat2Z.id; reflexivity).
    destruct (slice_D b p1 _ _ A1 LD) as (E1 & E2 & E3). destruct (R (slice p1 (ny * nx * w) b)) as (l & E4 & E5).
    + exact E2.
    + intros i j Hi Hj. rewrite Hv, E1 by assumption. symmetry. apply sint_slice; [|exact LD]. assert (K1 : (i * nx + j + 1 <= ny * nx)%nat) by nia. apply (Nat.mul_le_mono_r _ _ w) in K1. lia.
    + rewrite E4. cbn [rbind]. rewrite E5. cbn [rbind]. eexists. split; [reflexivity|]. cbn [contents pos]. split; [reflexivity|]. rewrite E2, Eq. exact E3.
  - rewrite (hstr_ext _ _ _ _ (proj2 (get_code _ _ _ V _) Tc)). cbn [rbind].
    change (zs_eqb (str "DSCOMPRESSED") (str "DIGITAL SURF")) with false. cbv iota.
    rewrite (hint_ext _ _ _ _ (get_compressed_data_size _ _ _ V)). cbn [rbind]. rewrite <- Bs.
    assert (Ep : p1 = data_at b p) by (destruct A1 as [A1|A1]; [exact A1|lia]). subst p1.
    destruct (compressed_ok z b _ body Hf LD Inf) as (h & E1 & E2 & E3). rewrite E1. cbn [rbind].
    destruct (R body Lb Hv) as (l & E4 & E5). rewrite E4. cbn [rbind]. rewrite E5. cbn [rbind].
    exists h. split; [reflexivity|]. split; [exact E2|]. exact (at_pos_join _ _ _ _ E3 Aq).
Qed.
(** the header can be read when every text in it can be decoded *)
Fixpoint texts (l : list entry) (p : nat) : list (nat * nat) :=
  match l with
  | [] => []
  | Reserved n :: l' => texts l' (p + n)
  | Entry _ (Fixed (FStr n)) :: l' => (p, n) :: texts l' (p + n)
  | Entry _ (Fixed f) :: l' => texts l' (p + calcsize f)
  | Entry _ _ :: l' => texts l' p
  end.
Definition plainb (e : entry) : bool := match e with Reserved _ => true | Entry _ (Fixed _) => true | _ => false end.
Lemma values_ok_texts en b : forall l p, forallb plainb l = true -> (p + lsize l <= length b)%nat ->
  (forall o n, In (o, n) (texts l p) -> is_ok (decode en (slice o n b)) = true) -> values_ok en b p l = true.
Proof.
  induction l as [|e l IH]; intros p P L D; [reflexivity|]. cbn [forallb] in P. apply andb_prop in P as [P1 P].
  rewrite lsize_cons in L. destruct e as [n|k [f|prev|f rd wr]]; cbn [plainb esize values_ok texts] in *; try discriminate.
  - apply IH; auto. lia.
  - assert (Lf : Nat.leb (p + calcsize f) (length b) = true) by (apply Nat.leb_le; lia). rewrite Lf. cbn [andb].
    assert (Fo : field_ok en f (slice p (calcsize f) b) = true).
    { destruct f; try reflexivity. cbn [field_ok calcsize]. apply D. left. reflexivity. }
    rewrite Fo. cbn [andb]. apply IH; auto; [lia|]. intros o n Ho. apply D. destruct f; cbn [calcsize] in *; auto. right. exact Ho.
Qed.
