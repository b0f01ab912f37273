(** Reading fixed layouts and arrays at known offsets. *)
From Coq Require Import String Ascii ZArith Lia Bool Reals Lra.
From Coq Require Import List.
From Flocq Require Import Core.Raux IEEE754.BinarySingleNaN IEEE754.Binary IEEE754.Bits.
From Verif Require Import Base ModelBytes SpecBytes ProofBytes PropsLayout PropsMagic PropsFits ModelSur ModelFormats ModelReaders SpecReaders.
Import ListNotations.
Local Open Scope Z_scope.

Definition slice (o n : nat) (b : bytes) : bytes := firstn n (skipn o b).
Lemma skipn_cons_nth {A} (d : A) : forall o (b : list A), (o < length b)%nat -> skipn o b = nth o b d :: skipn (S o) b.
Proof.
  induction o as [|o IH]; intros [|x b] H; cbn [length] in H; try lia; [reflexivity|].
  cbn [skipn nth]. rewrite IH by lia. reflexivity.
Qed.
Lemma slice_length o n b : length (slice o n b) = Nat.min n (length b - o).
Proof. unfold slice. rewrite firstn_length, skipn_length. reflexivity. Qed.
Lemma slice_len o n b : (o + n <= length b)%nat -> length (slice o n b) = n.
Proof. intros. rewrite slice_length. lia. Qed.
Lemma unle_slice n : forall o b, (o + n <= length b)%nat -> unle (slice o n b) = uint n b o.
Proof.
  induction n as [|n IH]; intros o b H; [reflexivity|].
  unfold slice. rewrite (skipn_cons_nth 0) by lia. cbn [firstn unle uint]. unfold byte. f_equal. f_equal.
  apply IH. lia.
Qed.
Lemma uint_range n : forall b o, is_file b -> 0 <= uint n b o < 256 ^ Z.of_nat n.
Proof.
  induction n as [|n IH]; intros b o H; cbn [uint]; [cbn; lia|].
  specialize (IH b (S o) H). rewrite Nat2Z.inj_succ, Z.pow_succ_r by lia.
  assert (B : 0 <= byte b o < 256).
  { unfold byte. destruct (Nat.lt_ge_cases o (length b)).
    - apply (proj1 (Forall_forall _ _) H). apply nth_In. auto.
    - rewrite nth_overflow by auto. lia. }
  nia.
Qed.
Lemma u32_nonneg b o : is_file b -> 0 <= u32 b o.
Proof. intros H. apply (uint_range 4 b o H). Qed.
Lemma slice_slice o n o' n' b : (o' + n' <= n)%nat -> slice o' n' (slice o n b) = slice (o + o') n' b.
Proof.
  intros H. unfold slice. rewrite skipn_firstn_comm, firstn_firstn, skipn_skipn. f_equal. lia.
Qed.
Lemma slice_app o n a c : (o + n <= length a)%nat -> slice o n (a ++ c) = slice o n a.
Proof.
  intros H. unfold slice. rewrite skipn_app, firstn_app, skipn_length.
  replace (n - (length a - o))%nat with 0%nat by lia. cbn. rewrite app_nil_r. reflexivity.
Qed.
Lemma uint_app n : forall o a c, (o + n <= length a)%nat -> uint n (a ++ c) o = uint n a o.
Proof.
  induction n as [|n IH]; intros o a c H; cbn [uint]; [reflexivity|]. rewrite IH by lia.
  unfold byte. rewrite app_nth1 by lia. reflexivity.
Qed.

(** *** fixed layouts: the value of every field *)
Definition field (en : encoding) (f : fmt) (b : bytes) : pyval :=
  match f with
  | FInt s n => VInt (if s then to_signed n (unle b) else unle b)
  | FF32 => VFloat (f64_of_f32 (b32_of_bits (unle b)))
  | FF64 => VFloat (b64_of_bits (unle b))
  | FBool => VBool (negb (unle b =? 0))
  | FStr _ => VStr (match decode en b with Ok s => rstrip blank0 s | Err _ => [] end)
  end.
Definition raw_field (f : fmt) (b : bytes) : pyval :=
  match f with FStr _ => VBytes b | _ => field Latin1 f b end.
Definition field_ok (en : encoding) (f : fmt) (b : bytes) : bool :=
  match f with FStr _ => is_ok (decode en b) | _ => true end.
Definition conv_val (rd : pyval -> res pyval) (v : pyval) : pyval := match rd v with Ok v' => v' | Err _ => v end.
Fixpoint values (en : encoding) (b : bytes) (p : nat) (l : list entry) : dict :=
  match l with
  | [] => []
  | Reserved n :: l' => values en b (p + n) l'
  | Entry name (Fixed f) :: l' => (name, field en f (slice p (calcsize f) b)) :: values en b (p + calcsize f) l'
  | Entry name (Convert f rd _) :: l' =>
    (name, conv_val rd (raw_field f (slice p (calcsize f) b))) :: values en b (p + calcsize f) l'
  | Entry name (FromPrev _) :: l' => values en b p l'
  end.
Fixpoint values_ok (en : encoding) (b : bytes) (p : nat) (l : list entry) : bool :=
  match l with
  | [] => true
  | Reserved n :: l' => values_ok en b (p + n) l'
  | Entry _ (Fixed f) :: l' =>
    Nat.leb (p + calcsize f) (length b) && field_ok en f (slice p (calcsize f) b) && values_ok en b (p + calcsize f) l'
  | Entry _ (Convert f rd _) :: l' =>
    Nat.leb (p + calcsize f) (length b) && is_ok (rd (raw_field f (slice p (calcsize f) b))) && values_ok en b (p + calcsize f) l'
  | Entry _ (FromPrev _) :: l' => false
  end.
Definition sized (e : entry) : Prop := match e with Reserved _ => True | Entry _ (FromPrev _) => False | Entry _ (Fixed f) => (0 < calcsize f)%nat | Entry _ (Convert f _ _) => (0 < calcsize f)%nat end.

Lemma dset_snoc d k v : dget d k = None -> dset d k v = (d ++ [(k, v)])%list.
Proof.
  induction d as [|[k' x] d IH]; cbn; [auto|]. destruct (String.eqb k k'); [discriminate|]. intros H. rewrite IH by auto. reflexivity.
Qed.
Lemma dget_app_none d e k : dget d k = None -> dget (d ++ e) k = dget e k.
Proof. induction d as [|[k' x] d IH]; cbn; [auto|]. destruct (String.eqb k k'); [discriminate|auto]. Qed.
Lemma fread_slice n b p : fread n {| contents := b; pos := p |} = (slice p n b, {| contents := b; pos := p + length (slice p n b) |}).
Proof. reflexivity. Qed.
Lemma slice_eqb p n b : (0 < n)%nat -> Nat.eqb (length (slice p n b)) n = Nat.leb (p + n) (length b).
Proof.
  intros H. rewrite slice_length. destruct (Nat.leb_spec (p + n) (length b)).
  - apply Nat.eqb_eq. lia.
  - apply Nat.eqb_neq. lia.
Qed.

Lemma read_values en b : forall l p d, Forall sized l -> NoDup (names l) -> (forall k, In k (names l) -> dget d k = None) ->
  (values_ok en b p l = true -> read_layout_from en l d {| contents := b; pos := p |} = Ok ((d ++ values en b p l)%list, {| contents := b; pos := p + lsize l |})) /\
  (forall r, read_layout_from en l d {| contents := b; pos := p |} = Ok r -> values_ok en b p l = true).
Proof.
  induction l as [|e l IH]; intros p d Hs Hn Hd; cbn [read_layout_from values values_ok].
  - rewrite app_nil_r, Nat.add_0_r. split; auto.
  - inversion Hs as [|? ? Hse Hsl]; subst. destruct e as [n|name [f|prev|f rd wr]]; cbn [read_entry sized] in *; try contradiction.
    + cbn [rbind]. rewrite lsize_cons. cbn [esize]. unfold fskip. cbn [contents pos].
      destruct (IH (p + n)%nat d Hsl Hn Hd) as [I1 I2]. split; [|exact I2].
      intros H. rewrite I1 by exact H. rewrite Nat.add_assoc. reflexivity.
    + cbn [names concat map app] in Hn, Hd. inversion Hn as [|? ? Hni Hn']; subst.
      assert (Hd1 : dget d name = None) by (apply Hd; left; reflexivity).
      assert (Hd2 : forall v k, In k (names l) -> dget (dset d name v) k = None).
      { intros v k Hk. rewrite dget_dset_other; [apply Hd; right; exact Hk|]. intros ->. apply Hni; exact Hk. }
      cbn [rbind]. unfold read_value. rewrite fread_slice. unfold unpack. rewrite slice_eqb by exact Hse.
      destruct (Nat.leb_spec (p + calcsize f) (length b)) as [L|L]; cbn [rbind andb rmap].
      2:{ split; [discriminate|intros r; discriminate]. }
      assert (G : forall v, field_ok en f (slice p (calcsize f) b) = true -> v = field en f (slice p (calcsize f) b) ->
        (values_ok en b (p + calcsize f) l = true -> read_layout_from en l (dset d name v) {| contents := b; pos := p + length (slice p (calcsize f) b) |}
          = Ok ((d ++ (name, field en f (slice p (calcsize f) b)) :: values en b (p + calcsize f) l)%list, {| contents := b; pos := p + lsize (Entry name (Fixed f) :: l) |})) /\
        (forall r, read_layout_from en l (dset d name v) {| contents := b; pos := p + length (slice p (calcsize f) b) |} = Ok r -> values_ok en b (p + calcsize f) l = true)).
      { intros v _ ->. rewrite slice_len by exact L.
        destruct (IH (p + calcsize f)%nat (dset d name (field en f (slice p (calcsize f) b))) Hsl Hn' (Hd2 _)) as [I1 I2].
        split; [|exact I2]. intros H. rewrite I1 by exact H. rewrite lsize_cons. cbn [esize]. rewrite Nat.add_assoc.
        rewrite dset_snoc by exact Hd1. rewrite <- app_assoc. reflexivity. }
      destruct f; cbn [field_ok rbind rmap] in *; try (cbn [andb]; apply G; reflexivity).
      destruct (decode en (slice p (calcsize (FStr n)) b)) as [s|ex] eqn:Ed; cbn [is_ok rmap rbind andb].
      * apply G; [reflexivity|]. cbn [field]. rewrite Ed. reflexivity.
      * split; [discriminate|intros r; discriminate].
    + cbn [names concat map app] in Hn, Hd. inversion Hn as [|? ? Hni Hn']; subst.
      assert (Hd1 : dget d name = None) by (apply Hd; left; reflexivity).
      assert (Hd2 : forall v k, In k (names l) -> dget (dset d name v) k = None).
      { intros v k Hk. rewrite dget_dset_other; [apply Hd; right; exact Hk|]. intros ->. apply Hni; exact Hk. }
      rewrite fread_slice. unfold unpack. rewrite slice_eqb by exact Hse.
      destruct (Nat.leb_spec (p + calcsize f) (length b)) as [L|L]; cbn [rbind andb rmap].
      2:{ split; [discriminate|intros r; discriminate]. }
      rewrite slice_len by exact L.
      assert (G : forall v, v = raw_field f (slice p (calcsize f) b) ->
        (is_ok (rd (raw_field f (slice p (calcsize f) b))) && values_ok en b (p + calcsize f) l = true ->
          rbind (rmap (fun v' => (dset d name v', {| contents := b; pos := p + calcsize f |})) (rd v)) (fun '(d', h') => read_layout_from en l d' h')
          = Ok ((d ++ (name, conv_val rd (raw_field f (slice p (calcsize f) b))) :: values en b (p + calcsize f) l)%list,
                {| contents := b; pos := p + lsize (Entry name (Convert f rd wr) :: l) |})) /\
        (forall r, rbind (rmap (fun v' => (dset d name v', {| contents := b; pos := p + calcsize f |})) (rd v)) (fun '(d', h') => read_layout_from en l d' h') = Ok r ->
          is_ok (rd (raw_field f (slice p (calcsize f) b))) && values_ok en b (p + calcsize f) l = true)).
      { intros v ->. destruct (rd (raw_field f (slice p (calcsize f) b))) as [v|ex] eqn:Er; cbn [is_ok rmap rbind andb].
        2:{ split; [discriminate|intros r; discriminate]. }
        destruct (IH (p + calcsize f)%nat (dset d name v) Hsl Hn' (Hd2 _)) as [I1 I2].
        split; [|exact I2]. intros H. rewrite I1 by exact H. rewrite lsize_cons. cbn [esize]. rewrite Nat.add_assoc.
        rewrite dset_snoc by exact Hd1. rewrite <- app_assoc. unfold conv_val. rewrite Er. reflexivity. }
      destruct f; apply G; reflexivity.
Qed.
(** a layout without variable fields succeeds exactly when every field is inside the file and readable *)
Theorem read_layout_values en l b p : Forall sized l -> NoDup (names l) ->
  (values_ok en b p l = true -> read_layout en l {| contents := b; pos := p |} = Ok (values en b p l, {| contents := b; pos := p + lsize l |})) /\
  (forall r, read_layout en l {| contents := b; pos := p |} = Ok r -> values_ok en b p l = true /\ r = (values en b p l, {| contents := b; pos := p + lsize l |})).
Proof.
  intros Hs Hn. destruct (read_values en b l p [] Hs Hn) as [I1 I2]; [reflexivity|]. cbn [app] in I1.
  split; [exact I1|]. intros r Hr. pose proof (I2 r Hr) as V. split; [exact V|]. unfold read_layout in Hr. rewrite I1 in Hr by exact V. apply ok_inj in Hr. symmetry. exact Hr.
Qed.

Lemma read_layout_inv en l b p d h : Forall sized l -> NoDup (names l) ->
  read_layout en l {| contents := b; pos := p |} = Ok (d, h) ->
  values_ok en b p l = true /\ d = values en b p l /\ h = {| contents := b; pos := p + lsize l |}.
Proof.
  intros Hs Hn H. apply (proj2 (read_layout_values en l b p Hs Hn)) in H as [V H]. split; [exact V|].
  split; [exact (f_equal fst H)|exact (f_equal snd H)].
Qed.

(** *** arrays *)
Lemma chunks_nth n : forall k b i, (i < k)%nat -> nth i (chunks k n b) [] = slice (i * n) n b.
Proof.
  induction k as [|k IH]; intros b i H; [lia|]. cbn [chunks]. destruct i as [|i]; cbn [nth]; [reflexivity|].
  rewrite IH by lia. unfold slice. rewrite skipn_skipn. f_equal.
Qed.
Lemma chunks_length n : forall k b, length (chunks k n b) = k.
Proof. induction k; intros; cbn [chunks length]; auto. Qed.
Lemma map_seq_nth {A} (d : A) (l : list A) : l = map (fun i => nth i l d) (seq 0 (length l)).
Proof.
  induction l as [|x l IH]; [reflexivity|]. cbn [length seq map nth]. apply (f_equal2 (@cons _)); [reflexivity|].
  rewrite <- seq_shift, map_map. exact IH.
Qed.
Definition items (size : nat) (b : bytes) (p n : nat) : list bytes := map (fun k => slice (p + k * size) size b) (seq 0 n).
Lemma items_length size b p n : length (items size b p n) = n.
Proof. unfold items. rewrite map_length, seq_length. reflexivity. Qed.
Lemma chunks_items size b p n : (p + n * size <= length b)%nat -> chunks n size (slice p (n * size) b) = items size b p n.
Proof.
  intros H. rewrite (map_seq_nth [] (chunks n size _)), chunks_length. unfold items. apply map_ext_in. intros i Hi.
  apply in_seq in Hi. rewrite chunks_nth by lia. apply slice_slice. nia.
Qed.
Lemma read_items_ok size n b p : (0 < size)%nat -> 0 <= n -> (p + Z.to_nat n * size <= length b)%nat ->
  read_items size n {| contents := b; pos := p |} = Ok (items size b p (Z.to_nat n), {| contents := b; pos := p + Z.to_nat n * size |}).
Proof.
  intros Hs Hn H. unfold read_items. rewrite fread_slice.
  replace (Z.to_nat (n * Z.of_nat size)) with (Z.to_nat n * size)%nat by lia.
  rewrite slice_len by exact H. unfold frombuffer. rewrite slice_len by exact H.
  rewrite Nat.mod_mul by lia. cbn [Nat.eqb]. rewrite Nat.div_mul by lia. cbn [rmap]. rewrite chunks_items by exact H. reflexivity.
Qed.
Lemma read_items_inv size n b p l h : (0 < size)%nat -> 0 <= n ->
  read_items size n {| contents := b; pos := p |} = Ok (l, h) ->
  (length l <= Z.to_nat n)%nat /\
  (length l = Z.to_nat n -> (n = 0 \/ (p + Z.to_nat n * size <= length b)%nat) /\ l = items size b p (Z.to_nat n) /\ h = {| contents := b; pos := p + Z.to_nat n * size |}).
Proof.
  intros Hs Hn. unfold read_items. rewrite fread_slice.
  replace (Z.to_nat (n * Z.of_nat size)) with (Z.to_nat n * size)%nat by lia.
  intros H. apply rmap_ok in H as (l' & H & E). injection E as -> ->. unfold frombuffer in H.
  destruct (Nat.eqb_spec (Nat.modulo (length (slice p (Z.to_nat n * size) b)) size) 0) as [M|M]; [|discriminate].
  apply ok_inj in H. subst l'. rewrite chunks_length. pose proof (slice_length p (Z.to_nat n * size) b) as SL.
  assert (D : length (slice p (Z.to_nat n * size) b) = (length (slice p (Z.to_nat n * size) b) / size * size)%nat).
  { pose proof (Nat.div_mod (length (slice p (Z.to_nat n * size) b)) size ltac:(lia)) as DM. rewrite M in DM. lia. }
  set (q := (length (slice p (Z.to_nat n * size) b) / size)%nat) in *. split; [nia|].
  intros ->. assert (C : n = 0 \/ (p + Z.to_nat n * size <= length b)%nat) by nia. split; [exact C|].
  split; [|f_equal; lia]. destruct C as [-> | C]; [reflexivity|]. apply chunks_items. exact C.
Qed.
Lemma rows_of_grid {A} (d : A) nx : forall ny (l : list A), length l = (ny * nx)%nat ->
  rows_of ny nx l = grid ny nx (fun i j => nth (i * nx + j) l d).
Proof.
  induction ny as [|ny IH]; intros l H; [reflexivity|]. cbn [rows_of]. unfold grid. cbn [seq map].
  apply (f_equal2 (@cons _)).
  - rewrite (map_seq_nth d (firstn nx l)), firstn_length. replace (Nat.min nx (length l)) with nx by nia.
    apply map_ext_in. intros j Hj. apply in_seq in Hj. cbn [Nat.mul Nat.add]. 
    rewrite <- (firstn_skipn nx l) at 2. rewrite app_nth1; [reflexivity|]. rewrite firstn_length. nia.
  - rewrite IH by (rewrite skipn_length; nia). unfold grid. rewrite <- seq_shift, map_map. apply map_ext_in. intros i Hi.
    apply map_ext_in. intros j Hj. apply in_seq in Hi, Hj. 
    rewrite <- (firstn_skipn nx l) at 2. rewrite app_nth2; rewrite firstn_length; replace (Nat.min nx (length l)) with nx by nia; [|nia].
    f_equal. nia.
Qed.
Lemma reshape_inv {A} (d : A) ny nx (l : list A) m : reshape ny nx l = Ok m ->
  length l = (ny * nx)%nat /\ m = grid ny nx (fun i j => nth (i * nx + j) l d).
Proof.
  unfold reshape. destruct (Nat.eqb_spec (length l) (ny * nx)); [|discriminate]. intros H. apply ok_inj in H. subst m.
  split; [assumption|]. apply rows_of_grid. assumption.
Qed.
Lemma reshape_ok {A} (d : A) ny nx (l : list A) : length l = (ny * nx)%nat ->
  reshape ny nx l = Ok (grid ny nx (fun i j => nth (i * nx + j) l d)).
Proof. intros H. unfold reshape. rewrite (proj2 (Nat.eqb_eq _ _) H). f_equal. apply rows_of_grid. exact H. Qed.
Lemma grid_map {A B} (f : A -> B) ny nx v : map (map f) (grid ny nx v) = grid ny nx (fun i j => f (v i j)).
Proof. unfold grid. rewrite map_map. apply map_ext. intros i. rewrite map_map. reflexivity. Qed.
Lemma grid_ext' {A} ny nx (v w : nat -> nat -> A) : (forall i j, (i < ny)%nat -> (j < nx)%nat -> v i j = w i j) -> grid ny nx v = grid ny nx w.
Proof. intros H. apply map_ext_in. intros i Hi. apply map_ext_in. intros j Hj. apply in_seq in Hi, Hj. apply H; lia. Qed.
Lemma items_nth size b p n k : (k < n)%nat -> nth k (items size b p n) [] = slice (p + k * size) size b.
Proof. intros H. unfold items. rewrite (nth_indep _ [] (slice (p + 0 * size) size b)) by (rewrite map_length, seq_length; exact H).
  rewrite (map_nth (fun k => slice (p + k * size) size b)). rewrite seq_nth by exact H. reflexivity. Qed.
(** a table of items, read and arranged *)
Lemma table_read {A} (g : bytes -> A) (d : A) size ny nx b p l h m : (0 < size)%nat -> 0 <= ny -> 0 <= nx ->
  read_items size (nx * ny) {| contents := b; pos := p |} = Ok (l, h) ->
  reshape (Z.to_nat ny) (Z.to_nat nx) (map g l) = Ok m ->
  (nx * ny = 0 \/ (p + Z.to_nat ny * Z.to_nat nx * size <= length b)%nat) /\
  m = grid (Z.to_nat ny) (Z.to_nat nx) (fun i j => g (slice (p + (i * Z.to_nat nx + j) * size) size b)) /\
  h = {| contents := b; pos := p + Z.to_nat ny * Z.to_nat nx * size |}.
Proof.
  intros Hs Hy Hx Hr Hm. apply (reshape_inv d) in Hm as [Hl ->]. rewrite map_length in Hl.
  apply read_items_inv in Hr as [_ Hr]; [|exact Hs|nia].
  replace (Z.to_nat (nx * ny)) with (Z.to_nat ny * Z.to_nat nx)%nat in Hr by nia.
  destruct (Hr Hl) as (H1 & H2 & ->). split; [exact H1|]. split; [|reflexivity].
  apply grid_ext'. intros i j Hi Hj. assert (K : (i * Z.to_nat nx + j < Z.to_nat ny * Z.to_nat nx)%nat) by nia.
  rewrite (nth_indep _ d (g [])) by (rewrite map_length; lia). rewrite map_nth, H2, items_nth by exact K. reflexivity.
Qed.
Lemma table_read_ok {A} (g : bytes -> A) size ny nx b p : (0 < size)%nat -> 0 <= ny -> 0 <= nx ->
  (p + Z.to_nat ny * Z.to_nat nx * size <= length b)%nat ->
  exists l, read_items size (nx * ny) {| contents := b; pos := p |} = Ok (l, {| contents := b; pos := p + Z.to_nat ny * Z.to_nat nx * size |}) /\
    reshape (Z.to_nat ny) (Z.to_nat nx) (map g l) = Ok (grid (Z.to_nat ny) (Z.to_nat nx) (fun i j => g (slice (p + (i * Z.to_nat nx + j) * size) size b))).
Proof.
  intros Hs Hy Hx H. assert (E : Z.to_nat (nx * ny) = (Z.to_nat ny * Z.to_nat nx)%nat) by nia.
  exists (items size b p (Z.to_nat ny * Z.to_nat nx)). split.
  - rewrite read_items_ok; rewrite ?E; auto; nia.
  - rewrite (reshape_ok (g [])) by (rewrite map_length, items_length; reflexivity). f_equal.
    apply grid_ext'. intros i j Hi Hj. assert (K : (i * Z.to_nat nx + j < Z.to_nat ny * Z.to_nat nx)%nat) by nia.
    rewrite map_nth, items_nth by exact K. reflexivity.
Qed.

(** *** fields by name *)
Fixpoint locate (l : list entry) (name : string) : option (nat * fmt) :=
  match l with
  | [] => None
  | Reserved n :: l' => option_map (fun '(o, f) => (n + o, f)%nat) (locate l' name)
  | Entry k (Fixed f) :: l' => if String.eqb name k then Some (0%nat, f) else option_map (fun '(o, g) => (calcsize f + o, g)%nat) (locate l' name)
  | Entry k (Convert f _ _) :: l' => if String.eqb name k then None else option_map (fun '(o, g) => (calcsize f + o, g)%nat) (locate l' name)
  | Entry k (FromPrev _) :: l' => None
  end.
Lemma locate_spec en b name : forall l p o f, locate l name = Some (o, f) ->
  dget (values en b p l) name = Some (field en f (slice (p + o) (calcsize f) b)) /\
  (values_ok en b p l = true -> (p + o + calcsize f <= length b)%nat).
Proof.
  induction l as [|e l IH]; intros p o f H; [discriminate|].
  destruct e as [n|k [g|prev|g rd wr]]; cbn [locate values values_ok dget] in *; try discriminate.
  - destruct (locate l name) as [[o' f']|]; [|discriminate]. cbn in H. injection H as <- <-.
    destruct (IH (p + n)%nat o' f' eq_refl) as [I1 I2]. rewrite Nat.add_assoc. auto.
  - destruct (String.eqb name k).
    + injection H as <- <-. rewrite Nat.add_0_r. split; [reflexivity|]. intros V.
      apply andb_prop in V as [V _]. apply andb_prop in V as [V _]. apply Nat.leb_le in V. exact V.
    + destruct (locate l name) as [[o' f']|]; [|discriminate]. cbn in H. injection H as <- <-.
      destruct (IH (p + calcsize g)%nat o' f' eq_refl) as [I1 I2]. rewrite Nat.add_assoc. split; [exact I1|].
      intros V. apply andb_prop in V as [_ V]. auto.
  - destruct (String.eqb name k); [discriminate|].
    destruct (locate l name) as [[o' f']|]; [|discriminate]. cbn in H. injection H as <- <-.
    destruct (IH (p + calcsize g)%nat o' f' eq_refl) as [I1 I2]. rewrite Nat.add_assoc. split; [exact I1|].
    intros V. apply andb_prop in V as [_ V]. auto.
Qed.
Section fields.
Variables (en : encoding) (b : bytes) (p : nat) (l : list entry) (name : string) (o : nat).
Lemma located_in f : values_ok en b p l = true -> locate l name = Some (o, f) -> (p + o + calcsize f <= length b)%nat.
Proof. intros V H. apply (proj2 (locate_spec en b name l p o f H)). exact V. Qed.
Lemma hint_u n : values_ok en b p l = true -> locate l name = Some (o, FInt false n) -> hint (values en b p l) name = Ok (uint n b (p + o)).
Proof.
  intros V H. pose proof (located_in _ V H) as L. destruct (locate_spec en b name l p o _ H) as [D _].
  unfold hint, dkey. rewrite D. cbn [field rbind calcsize] in *. rewrite unle_slice by exact L. reflexivity.
Qed.
Lemma hint_s n : values_ok en b p l = true -> locate l name = Some (o, FInt true n) ->
  hint (values en b p l) name = Ok (two_compl (8 * Z.of_nat n) (uint n b (p + o))).
Proof.
  intros V H. pose proof (located_in _ V H) as L. destruct (locate_spec en b name l p o _ H) as [D _].
  unfold hint, dkey. rewrite D. cbn [field rbind calcsize] in *. rewrite unle_slice by exact L. reflexivity.
Qed.
Lemma hflt_32 : values_ok en b p l = true -> locate l name = Some (o, FF32) -> hflt (values en b p l) name = Ok (single_at b (p + o)).
Proof.
  intros V H. pose proof (located_in _ V H) as L. destruct (locate_spec en b name l p o _ H) as [D _].
  unfold hflt, dkey. rewrite D. cbn [field rbind calcsize] in *. rewrite unle_slice by exact L. reflexivity.
Qed.
Lemma hflt_64 : values_ok en b p l = true -> locate l name = Some (o, FF64) -> hflt (values en b p l) name = Ok (f64_at b (p + o)).
Proof.
  intros V H. pose proof (located_in _ V H) as L. destruct (locate_spec en b name l p o _ H) as [D _].
  unfold hflt, dkey. rewrite D. cbn [field rbind calcsize] in *. rewrite unle_slice by exact L. reflexivity.
Qed.
End fields.
(** layouts of numbers only: readable exactly when long enough *)
Definition numeric (e : entry) : Prop :=
  match e with Reserved _ => True | Entry _ (Fixed (FStr _)) => False | Entry _ (Fixed f) => (0 < calcsize f)%nat | _ => False end.
Lemma numeric_sized l : Forall numeric l -> Forall sized l.
Proof. intros H. eapply Forall_impl; [|exact H]. intros [n|k [f|q|f rd wr]]; cbn; auto; try contradiction. destruct f; cbn; auto; contradiction. Qed.
Lemma numeric_ok en b : forall l p, Forall numeric l -> (p + lsize l <= length b)%nat -> values_ok en b p l = true.
Proof.
  induction l as [|e l IH]; intros p H L; [reflexivity|]. inversion H as [|? ? He Hl]; subst. rewrite lsize_cons in L.
  destruct e as [n|k [f|q|f rd wr]]; cbn [numeric values_ok esize] in *; try contradiction.
  - apply IH; [exact Hl|lia].
  - rewrite IH by (auto; lia). rewrite (proj2 (Nat.leb_le _ _)) by lia.
    destruct f; try contradiction; reflexivity.
Qed.
Lemma values_ok_last en b name f : forall l p, values_ok en b p (l ++ [E name f]) = true -> (p + lsize l + calcsize f <= length b)%nat.
Proof.
  induction l as [|e l IH]; intros p H; cbn [app values_ok] in H.
  - unfold E in H. cbn [values_ok] in H. unfold lsize. cbn. apply andb_prop in H as [H _]. apply andb_prop in H as [H _]. apply Nat.leb_le in H. lia.
  - rewrite lsize_cons. destruct e as [n|k [g|q|g rd wr]]; cbn [esize] in *; try discriminate.
    + apply IH in H. lia.
    + apply andb_prop in H as [_ H]. apply IH in H. lia.
    + apply andb_prop in H as [_ H]. apply IH in H. lia.
Qed.

(** *** tables *)
Lemma nth_error_map_seq {A} (g : nat -> A) n i : (i < n)%nat -> nth_error (map g (seq 0 n)) i = Some (g i).
Proof. intros H. rewrite nth_error_map, (nth_error_nth' _ 0%nat) by (rewrite seq_length; exact H). rewrite seq_nth by exact H. reflexivity. Qed.
Lemma grid_is {A} ny nx (v : nat -> nat -> A) (P : nat -> nat -> A -> Prop) :
  (forall i j, (i < ny)%nat -> (j < nx)%nat -> P i j (v i j)) -> table_is (grid ny nx v) ny nx P.
Proof.
  intros H. unfold table_is, grid. rewrite map_length, seq_length. split; [reflexivity|]. intros i Hi.
  exists (map (fun j => v i j) (seq 0 nx)). rewrite nth_error_map_seq by exact Hi. split; [reflexivity|].
  rewrite map_length, seq_length. split; [reflexivity|]. intros j Hj. exists (v i j).
  rewrite nth_error_map_seq by exact Hj. auto.
Qed.
(** the places of table items are inside the file *)
Lemma item_in size ny nx i j p (b : bytes) : (i < ny)%nat -> (j < nx)%nat -> (p + ny * nx * size <= length b)%nat ->
  (p + (i * nx + j) * size + size <= length b)%nat.
Proof. intros Hi Hj L. assert (K : (i * nx + j + 1 <= ny * nx)%nat) by nia. pose proof (Nat.mul_le_mono_r _ _ size K). lia. Qed.

(** *** comparisons of singles *)
Lemma feq_s_iff v c : Binary.is_finite 24 128 c = true -> (feq_s v c = true <-> Binary.is_finite 24 128 v = true /\ val32 v = val32 c).
Proof.
  intros Hc. unfold feq_s, val32. destruct (Binary.is_finite 24 128 v) eqn:Hv.
  - unfold b32_compare. rewrite Binary.Bcompare_correct by assumption.
    destruct (Raux.Rcompare_spec (Binary.B2R 24 128 v) (Binary.B2R 24 128 c)); split; intros H'; try discriminate; try (destruct H'; lra); auto.
  - split; [|intros [H _]; discriminate]. intros H. exfalso.
    destruct v as [| s | |]; try discriminate; destruct c; try discriminate; destruct s; discriminate.
Qed.
Lemma flt_s_iff v c : Binary.is_finite 24 128 c = true -> (flt_s v c = true <-> (Binary.is_finite 24 128 v = true /\ (val32 v < val32 c)%R) \/ v = Binary.B754_infinity 24 128 true).
Proof.
  intros Hc. unfold flt_s, val32. destruct (Binary.is_finite 24 128 v) eqn:Hv.
  - unfold b32_compare. rewrite Binary.Bcompare_correct by assumption.
    destruct (Raux.Rcompare_spec (Binary.B2R 24 128 v) (Binary.B2R 24 128 c)); split; intros H'; try discriminate; auto;
      destruct H' as [[_ H']|H']; try lra; subst v; discriminate.
  - split.
    + intros H. right. destruct v as [| s | |]; try discriminate; destruct c as [| | |sc]; try discriminate; destruct s; try reflexivity; discriminate.
    + intros [[H _]| ->]; [discriminate|]. destruct c as [| | |sc]; try discriminate; reflexivity.
Qed.

(** deciding the side conditions of concrete layouts *)
Definition sizedb (e : entry) : bool :=
  match e with Reserved _ => true | Entry _ (FromPrev _) => false | Entry _ (Fixed f) => Nat.ltb 0 (calcsize f) | Entry _ (Convert f _ _) => Nat.ltb 0 (calcsize f) end.
Definition numericb (e : entry) : bool :=
  match e with Reserved _ => true | Entry _ (Fixed (FStr _)) => false | Entry _ (Fixed f) => Nat.ltb 0 (calcsize f) | _ => false end.
Fixpoint distinctb (l : list string) : bool := match l with [] => true | x :: l' => negb (existsb (String.eqb x) l') && distinctb l' end.
Lemma sizedb_ok l : forallb sizedb l = true -> Forall sized l.
Proof.
  intros H. apply Forall_forall. intros e He. apply (proj1 (forallb_forall _ _) H) in He.
  destruct e as [n|k [f|q|f rd wr]]; cbn [sizedb sized] in *; auto; try discriminate; apply Nat.ltb_lt; exact He.
Qed.
Lemma numericb_ok l : forallb numericb l = true -> Forall numeric l.
Proof.
  intros H. apply Forall_forall. intros e He. apply (proj1 (forallb_forall _ _) H) in He.
  destruct e as [n|k [f|q|f rd wr]]; cbn [numericb numeric] in *; auto; try discriminate. destruct f; try discriminate; apply Nat.ltb_lt; exact He.
Qed.
Lemma distinctb_ok l : distinctb l = true -> NoDup l.
Proof.
  induction l as [|x l IH]; intros H; constructor; cbn in H; apply andb_prop in H as [H1 H2]; auto.
  intros Hin. apply negb_true_iff in H1. assert (existsb (String.eqb x) l = true); [|congruence].
  apply existsb_exists. exists x. rewrite String.eqb_refl. auto.
Qed.
Ltac is_sized := apply sizedb_ok; vm_compute; reflexivity.
Ltac is_numeric := apply numericb_ok; vm_compute; reflexivity.
Ltac is_distinct := apply distinctb_ok; vm_compute; reflexivity.
Lemma seq_shift_n n k : seq n k = map (fun c => (n + c)%nat) (seq 0 k).
Proof. induction n as [|n IH]; [cbn; rewrite map_id; reflexivity|]. rewrite <- seq_shift, IH, map_map. apply map_ext. reflexivity. Qed.
Lemma reshape3_inv {A} (d : A) ny nx k (l : list A) m : reshape3 ny nx k l = Ok m ->
  length l = (ny * nx * k)%nat /\ m = grid ny nx (fun i j => map (fun c => nth ((i * nx + j) * k + c) l d) (seq 0 k)).
Proof.
  unfold reshape3. intros H. apply rbind_ok in H as (px & H1 & H2). apply (reshape_inv d) in H1 as [L ->].
  split; [exact L|]. apply (reshape_inv []) in H2 as [_ ->]. apply grid_ext'. intros i j Hi Hj. unfold grid.
  assert (K : (i * nx + j < ny * nx)%nat) by nia.
  rewrite (nth_indep _ [] (map (fun c => nth (0 * k + c) l d) (seq 0 k))) by (rewrite map_length, seq_length; exact K).
  rewrite (map_nth (fun i => map (fun j => nth (i * k + j) l d) (seq 0 k))). rewrite seq_nth by exact K. reflexivity.
Qed.
Lemma forallb_grid {A} (f : A -> bool) ny nx v :
  forallb (forallb f) (grid ny nx v) = true <-> (forall i j, (i < ny)%nat -> (j < nx)%nat -> f (v i j) = true).
Proof.
  unfold grid. split.
  - intros H i j Hi Hj. rewrite forallb_forall in H. specialize (H (map (fun j => v i j) (seq 0 nx))).
    assert (I : In (map (fun j => v i j) (seq 0 nx)) (map (fun i => map (fun j => v i j) (seq 0 nx)) (seq 0 ny))).
    { apply in_map_iff. exists i. split; [reflexivity|apply in_seq; lia]. }
    apply H in I. rewrite forallb_forall in I. apply I. apply in_map_iff. exists j. split; [reflexivity|apply in_seq; lia].
  - intros H. apply forallb_forall. intros r Hr. apply in_map_iff in Hr as (i & <- & Hi). apply forallb_forall.
    intros x Hx. apply in_map_iff in Hx as (j & <- & Hj). apply in_seq in Hi, Hj. apply H; lia.
Qed.
Lemma grid_false {A} (f : A -> bool) ny nx v :
  forallb (forallb f) (grid ny nx v) = false -> exists i j, (i < ny)%nat /\ (j < nx)%nat /\ f (v i j) = false.
Proof.
  intros H. assert (G : forall {B} (g : B -> bool) l, forallb g l = false -> exists x, In x l /\ g x = false).
  { intros B g l. induction l as [|x l IH]; cbn; [discriminate|]. destruct (g x) eqn:E; cbn; [intros H'; destruct (IH H') as (y & ? & ?); eauto|eauto]. }
  apply G in H as (r & Hr & H). apply in_map_iff in Hr as (i & <- & Hi). apply G in H as (x & Hx & H).
  apply in_map_iff in Hx as (j & <- & Hj). apply in_seq in Hi, Hj. exists i, j. repeat split; auto; lia.
Qed.
(** an array of single bytes *)
Lemma bytes_read n b p l h : 0 <= n -> read_items 1 n {| contents := b; pos := p |} = Ok (l, h) -> length l = Z.to_nat n ->
  ((p + Z.to_nat n <= length b)%nat \/ n = 0) /\ (forall k, (k < Z.to_nat n)%nat -> nth k (map item_u l) 0 = byte b (p + k)).
Proof.
  intros Hn H L. apply read_items_inv in H as [_ H]; [|lia|exact Hn]. destruct (H L) as (H1 & H2 & _). split; [lia|].
  intros k Hk. rewrite (nth_indep _ 0 (item_u [])) by (rewrite map_length; lia). rewrite map_nth, H2, items_nth by exact Hk.
  unfold item_u. rewrite unle_slice by lia. cbn [uint]. rewrite Nat.mul_1_r. lia.
Qed.
Lemma read_items_0 size b p : (0 < size)%nat -> read_items size 0 {| contents := b; pos := p |} = Ok ([], {| contents := b; pos := p |}).
Proof.
  intros H. unfold read_items. rewrite fread_slice. change (Z.to_nat (0 * Z.of_nat size)) with 0%nat.
  change (slice p 0 b) with (@nil Z). unfold frombuffer. cbn [length]. rewrite Nat.mod_0_l, Nat.div_0_l by lia. cbn [Nat.eqb rmap chunks].
  rewrite Nat.add_0_r. reflexivity.
Qed.

(** *** strings whose length is an earlier field *)
Lemma read_layout_from_app en l1 : forall l2 d h,
  read_layout_from en (l1 ++ l2) d h = rbind (read_layout_from en l1 d h) (fun '(d', h') => read_layout_from en l2 d' h').
Proof.
  induction l1 as [|e l1 IH]; intros l2 d h; [reflexivity|]. cbn [app read_layout_from].
  destruct (read_entry en e d h) as [[d' h']|ex]; cbn [rbind]; auto.
Qed.
Lemma prev_inv en name prev d b p d' h' :
  read_entry en (Entry name (FromPrev prev)) d {| contents := b; pos := p |} = Ok (d', h') ->
  exists z s, dget d prev = Some (VInt z) /\ 0 <= z /\ (z = 0 \/ (p + Z.to_nat z <= length b)%nat) /\
    decode en (slice p (Z.to_nat z) b) = Ok s /\ d' = dset d name (VStr (rstrip blank0 s)) /\ h' = {| contents := b; pos := p + Z.to_nat z |}.
Proof.
  cbn [read_entry]. unfold get_format, dkey. intros H. apply rbind_ok in H as (f & Hg & H). apply rbind_ok in Hg as (v & Hv & Hg).
  destruct (dget d prev) as [v'|]; [|discriminate]. injection Hv as ->. destruct v as [z| | | |]; try discriminate.
  destruct (Z.ltb_spec z 0); [discriminate|]. apply ok_inj in Hg. subst f.
  apply rmap_ok in H as ([v h1] & H & E). injection E as -> ->.
  unfold read_value in H. rewrite fread_slice in H. cbn [calcsize] in H. apply rbind_ok in H as (u & Hu & H).
  pose proof (unpack_length _ _ _ Hu) as L. cbn [calcsize] in L.
  unfold unpack in Hu. rewrite L in Hu. cbn [calcsize] in Hu. rewrite Nat.eqb_refl in Hu. apply ok_inj in Hu. subst u.
  apply rmap_ok in H as (s & Hs & E). injection E as -> ->. exists z, s. rewrite L. repeat split; auto.
  rewrite slice_length in L. lia.
Qed.
Lemma prev_ok en name prev d b p z s : dget d prev = Some (VInt z) -> 0 <= z -> (p + Z.to_nat z <= length b)%nat ->
  decode en (slice p (Z.to_nat z) b) = Ok s ->
  read_entry en (Entry name (FromPrev prev)) d {| contents := b; pos := p |}
    = Ok (dset d name (VStr (rstrip blank0 s)), {| contents := b; pos := p + Z.to_nat z |}).
Proof.
  intros Hd Hz L Hs. cbn [read_entry]. unfold get_format, dkey. rewrite Hd. cbn [rbind]. rewrite (proj2 (Z.ltb_ge _ _)) by exact Hz.
  cbn [rbind]. unfold read_value. rewrite fread_slice. cbn [calcsize]. unfold unpack. cbn [calcsize]. rewrite slice_len by exact L. rewrite Nat.eqb_refl.
  cbn [rbind]. rewrite Hs. reflexivity.
Qed.
Lemma hint_app d e k : dget d k = None -> hint (d ++ e) k = hint e k.
Proof. intros H. unfold hint, dkey. rewrite dget_app_none by exact H. reflexivity. Qed.
Lemma hflt_app d e k : dget d k = None -> hflt (d ++ e) k = hflt e k.
Proof. intros H. unfold hflt, dkey. rewrite dget_app_none by exact H. reflexivity. Qed.
Lemma dget_app_some d e k v : dget d k = Some v -> dget (d ++ e) k = Some v.
Proof. induction d as [|[k' x] d IH]; cbn; [discriminate|]. destruct (String.eqb k k'); auto. Qed.
Lemma is_file_slice o n b : is_file b -> is_file (slice o n b).
Proof.
  intros H. unfold slice. rewrite <- (firstn_skipn o b) in H. apply Forall_app in H as [_ H].
  rewrite <- (firstn_skipn n (skipn o b)) in H. apply Forall_app in H as [H _]. exact H.
Qed.
