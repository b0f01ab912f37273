(** Property C113: what is read from a file in the native format (.sflz), whoever wrote it. *)
From Coq Require Import String Ascii ZArith Lia Bool Reals.
From Coq Require Import List.
From Flocq Require Import IEEE754.BinarySingleNaN IEEE754.Binary IEEE754.Bits.
From Verif Require Import Base ModelBytes SpecBytes ProofBytes PropsLayout PropsMagic ModelUnits ModelSur ModelFormats PropsTmd ModelSflz ProofSflz PropsSflz PropsSflzBytes SpecReaders ProofReaders PropsReaders.
Import ListNotations.
Local Open Scope Z_scope.

(** *** The format by byte offsets *)
(** the n bytes at o are the text s, without what fills the field *)
Definition says_text (b : bytes) (o n : nat) (s : pystr) : Prop :=
  exists t, utf8_decode (slice o n b) = Ok t /\ s = rstrip blank0 t.
(** unpacking the contents of a block: compression 0, 1 or 2 *)
Inductive unpacked (c : codecs) : Z -> bytes -> bytes -> Prop :=
| Plainly p : unpacked c 0 p p
| By_zlib p d : decompress (c_zlib c) p = Ok d -> unpacked c 1 p d
| By_lzma p d : decompress (c_lzma c) p = Ok d -> unpacked c 2 p d.
(** a block at byte o, and the byte behind it: length of the name, name, width, height, channels, type, length, contents *)
Inductive block_at (c : codecs) (codec : Z) (b : bytes) (o : nat) : layer -> nat -> Prop :=
| Block name dt data :
    let n := Z.to_nat (u16 b o) in let q := (o + 2 + n)%nat in
    let w := Z.to_nat (u32 b q) in let h := Z.to_nat (u32 b (q + 4)) in let k := Z.to_nat (byte b (q + 8)) in
    let p := slice (q + 16) (Z.to_nat (u32 b (q + 12))) b in
    let shape := if (1 <? k)%nat then [h; w; k] else [h; w] in
    (q + 16 <= length b)%nat -> says_text b (o + 2) n name -> says_text b (q + 9) 3 (type_code dt) -> In dt dtypes ->
    unpacked c codec p data -> length data = (h * w * Nat.max 1 k * dsize dt)%nat ->
    block_at c codec b o {| lname := name; lshape := shape; ldt := dt; lbytes := data |} (q + 16 + length p).
(** m blocks, one behind the other, from byte o up to byte e *)
Inductive blocks_at (c : codecs) (codec : Z) (b : bytes) : nat -> nat -> list layer -> nat -> Prop :=
| No_block o : blocks_at c codec b 0 o [] o
| More_blocks m o o' x l e : block_at c codec b o x o' -> blocks_at c codec b m o' l e -> blocks_at c codec b (S m) o (x :: l) e.
(** the head of the file: SFLZ, version, ..., compression *)
Definition head_ok (b : bytes) : Prop :=
  (52 <= length b)%nat /\ firstn 4 b = str "SFLZ" /\ (exists t, utf8_decode (slice 4 10 b) = Ok t) /\ 0 <= byte b 51 <= 2.
(** the blocks the reader looks at *)
Definition wanted (b : bytes) (images : bool) : nat := if images then Z.to_nat (u16 b 47) else 1%nat.

(** *** The reader follows it *)
Lemma uint1 b o : is_file b -> uint 1 b o = byte b o.
Proof. intros _. cbn [uint]. lia. Qed.
Lemma byte_range b o : is_file b -> 0 <= byte b o < 256.
Proof. intros H. rewrite <- uint1 by exact H. apply (uint_range 1 b o H). Qed.
Lemma cread_byte b o : is_ok (cread (raw_field fmt_B (slice o 1 b))) = true <-> 0 <= unle (slice o 1 b) <= 2.
Proof.
  unfold fmt_B. cbn [raw_field field]. unfold cread, cname. generalize (unle (slice o 1 b)). intros z.
  destruct (Z.eqb_spec z 0) as [->|]; [cbn; split; [lia|reflexivity]|].
  destruct (Z.eqb_spec z 1) as [->|]; [cbn; split; [lia|reflexivity]|].
  destruct (Z.eqb_spec z 2) as [->|]; [cbn; split; [lia|reflexivity]|]. cbn. split; [discriminate|lia].
Qed.
Lemma is_ok_ex {A} (x : res A) : is_ok x = true <-> exists a, x = Ok a.
Proof. destruct x as [a|e]; cbn; split; intros H; try discriminate; eauto. destruct H; discriminate. Qed.
Lemma head_values b : is_file b -> (values_ok Utf8 b 4 sflz_layout = true <->
  (52 <= length b)%nat /\ (exists t, utf8_decode (slice 4 10 b) = Ok t) /\ 0 <= byte b 51 <= 2).
Proof.
  intros Hf. unfold sflz_layout, E. cbn [values_ok calcsize fmt_H fmt_B Nat.add field_ok decode].
  rewrite !andb_true_iff, !Nat.leb_le, cread_byte, is_ok_ex. 
  split.
  - intros H. decompose [and] H. rewrite unle_slice in * by lia. rewrite uint1 in * by exact Hf. repeat split; auto; lia.
  - intros (L & T & C). rewrite unle_slice by lia. rewrite uint1 by exact Hf. repeat split; auto; lia.
Qed.
Lemma dparse_iff s dt : dparse s = Ok dt <-> In dt dtypes /\ s = type_code dt.
Proof.
  split.
  - intros H. unfold dparse, dtypes in H. cbn [dfind] in H.
    repeat match type of H with (if zs_eqb s ?t then _ else _) = _ =>
      destruct (zs_eqb s t) eqn:?Q; [apply zs_eqb_eq in Q; apply ok_inj in H; subst; split; [vm_compute; tauto|reflexivity]|clear Q] end.
    discriminate.
  - intros [H ->]. cbn in H. repeat (destruct H as [<- | H]; [reflexivity|]). destruct H.
Qed.
Lemma dsize_pos dt : In dt dtypes -> (0 < dsize dt)%nat.
Proof. intros H. cbn in H. repeat (destruct H as [<- | H]; [cbn; lia|]). destruct H. Qed.
Lemma frombuffer_iff n d its : (0 < n)%nat -> (frombuffer n d = Ok its <-> exists m, length d = (m * n)%nat /\ its = chunks m n d).
Proof.
  intros Hn. unfold frombuffer. split.
  - destruct (Nat.eqb_spec (length d mod n) 0) as [M|]; [|discriminate]. intros H. apply ok_inj in H. exists (length d / n)%nat. split; [|auto].
    pose proof (Nat.div_mod (length d) n ltac:(lia)). lia.
  - intros (m & L & ->). rewrite L, Nat.mod_mul, Nat.div_mul by lia. reflexivity.
Qed.
(** the three names of the compressions *)
Definition codec_name (codec : Z) (comp : pystr) : Prop := cname codec = Ok comp.
Lemma unpack_iff c codec comp p d : codec_name codec comp -> (cdecompress c comp p = Ok d <-> unpacked c codec p d).
Proof.
  unfold codec_name, cname. intros H.
  destruct (Z.eqb_spec codec 0) as [->|]; [|destruct (Z.eqb_spec codec 1) as [->|]; [|destruct (Z.eqb_spec codec 2) as [->|]; [|discriminate]]];
    apply ok_inj in H; subst comp; unfold cdecompress.
  - change (zs_eqb (str "none") (str "zlib")) with false. change (zs_eqb (str "none") (str "lzma")) with false. cbn iota. split; intros H.
    + apply ok_inj in H. subst. constructor.
    + inversion H; subst. reflexivity.
  - change (zs_eqb (str "zlib") (str "zlib")) with true. cbn iota. split; intros H; [now constructor|now inversion H].
  - change (zs_eqb (str "lzma") (str "zlib")) with false. change (zs_eqb (str "lzma") (str "lzma")) with true. cbn iota. split; intros H; [now constructor|now inversion H].
Qed.
Definition layer_a : list entry := [E "name_length" fmt_H].
Definition layer_c : list entry := skipn 2 layer_layout.
Lemma layer_split h : read_layout Utf8 layer_layout h =
  rbind (read_layout_from Utf8 layer_a [] h) (fun '(d, h) =>
  rbind (read_entry Utf8 (Entry "name" (FromPrev "name_length")) d h) (fun '(d, h) => read_layout_from Utf8 layer_c d h)).
Proof.
  unfold read_layout. change layer_layout with (layer_a ++ Entry "name" (FromPrev "name_length") :: layer_c)%list.
  rewrite read_layout_from_app. destruct (read_layout_from Utf8 layer_a [] h) as [[d h1]|ex]; reflexivity.
Qed.
(** what the header of a block says *)
Lemma block_header b o d h : is_file b -> read_layout Utf8 layer_layout {| contents := b; pos := o |} = Ok (d, h) ->
  let q := (o + 2 + Z.to_nat (u16 b o))%nat in exists name ty,
  (q + 16 <= length b)%nat /\ says_text b (o + 2) (Z.to_nat (u16 b o)) name /\ says_text b (q + 9) 3 ty /\
  hstr d "name" = Ok name /\ hstr d "datatype" = Ok ty /\ hint d "width" = Ok (u32 b q) /\ hint d "height" = Ok (u32 b (q + 4)) /\
  hint d "channels" = Ok (byte b (q + 8)) /\ hint d "size" = Ok (u32 b (q + 12)) /\ h = {| contents := b; pos := q + 16 |}.
Proof.
  intros Hf H q. rewrite layer_split in H. apply rbind_ok in H as ([d1 h1] & Ha & H).
  apply part_inv in Ha as (Va & -> & ->); [|is_sized|is_distinct|in_names]. cbn [app] in H. change (lsize layer_a) with 2%nat in H.
  apply rbind_ok in H as ([d2 h2] & H1 & H). apply prev_inv in H1 as (z1 & s1 & G1 & Z1 & L1 & D1 & -> & ->).
  assert (La : (o + 2 <= length b)%nat) by (pose proof (located_in Utf8 b o layer_a "name_length" 0 fmt_H Va eq_refl) as L; cbn [calcsize fmt_H] in L; lia).
  rewrite (proj1 (locate_spec Utf8 b "name_length" layer_a o 0 fmt_H eq_refl)) in G1.
  assert (E1 : z1 = u16 b o).
  { injection G1 as <-. unfold u16. rewrite Nat.add_0_r. rewrite unle_slice by (cbn; lia). reflexivity. }
  subst z1. clear G1. fold q in H. set (d2 := dset _ _ _) in H.
  apply part_inv in H as (Vc & -> & ->); [|is_sized|is_distinct|in_names]. change (lsize layer_c) with 16%nat.
  assert (Lc : (q + 16 <= length b)%nat) by (pose proof (located_in Utf8 b q layer_c "size" 12 fmt_I Vc eq_refl) as L; cbn [calcsize fmt_I] in L; lia).
  pose proof (proj1 (locate_spec Utf8 b "datatype" layer_c q 9 (FStr 3) eq_refl)) as Gt. cbn [field calcsize] in Gt.
  assert (Dt : exists t, utf8_decode (slice (q + 9) 3 b) = Ok t).
  { unfold layer_c, layer_layout, E in Vc. cbn [skipn values_ok calcsize fmt_I fmt_B field_ok decode] in Vc. rewrite !andb_true_iff, is_ok_ex in Vc.
    replace (q + 9)%nat with (q + 4 + 4 + 1)%nat by lia. tauto. }
  destruct Dt as (t & Dt). cbn [decode] in Gt. rewrite Dt in Gt.
  exists (rstrip blank0 s1), (rstrip blank0 t). split; [exact Lc|]. split; [exists s1; auto|]. split; [exists t; auto|].
  split; [unfold hstr, dkey; rewrite (dget_app_some d2 _ _ (VStr (rstrip blank0 s1))); [reflexivity|]; unfold d2; apply dget_dset_same|].
  split; [unfold hstr, dkey; rewrite dget_app_none by reflexivity; rewrite Gt; reflexivity|].
  rewrite !hint_app by reflexivity.
  rewrite (hint_u _ _ _ _ "width" 0%nat 4%nat Vc eq_refl), (hint_u _ _ _ _ "height" 4%nat 4%nat Vc eq_refl), (hint_u _ _ _ _ "channels" 8%nat 1%nat Vc eq_refl), (hint_u _ _ _ _ "size" 12%nat 4%nat Vc eq_refl).
  rewrite Nat.add_0_r, uint1 by exact Hf. repeat split; reflexivity.
Qed.
Lemma block_header_ok b o name ty : is_file b -> let q := (o + 2 + Z.to_nat (u16 b o))%nat in
  (q + 16 <= length b)%nat -> says_text b (o + 2) (Z.to_nat (u16 b o)) name -> says_text b (q + 9) 3 ty ->
  exists d h, read_layout Utf8 layer_layout {| contents := b; pos := o |} = Ok (d, h).
Proof.
  intros Hf q L (s1 & D1 & _) (t & Dt & _). subst q. pose proof (uint_range 2 b o Hf) as R0. rewrite layer_split.
  assert (Va : values_ok Utf8 b o layer_a = true) by (apply numeric_ok; [is_numeric|change (lsize layer_a) with 2%nat; lia]).
  rewrite (proj1 (read_values Utf8 b layer_a o [] ltac:(is_sized) ltac:(is_distinct) ltac:(in_names)) Va). cbn [rbind app].
  change (lsize layer_a) with 2%nat.
  rewrite (prev_ok Utf8 _ _ _ b (o + 2) (u16 b o) s1); try assumption; try (unfold u16; lia).
  2:{ rewrite (proj1 (locate_spec Utf8 b "name_length" layer_a o 0 fmt_H eq_refl)). cbn [field fmt_H calcsize]. rewrite Nat.add_0_r, unle_slice by lia. reflexivity. }
  cbn [rbind]. set (d2 := dset _ _ _). set (q := (o + 2 + Z.to_nat (u16 b o))%nat) in *.
  assert (Vc : values_ok Utf8 b q layer_c = true).
  { unfold layer_c, layer_layout, E. cbn [skipn values_ok calcsize fmt_I fmt_B field_ok decode]. rewrite !andb_true_iff, is_ok_ex, !Nat.leb_le.
    replace (q + 4 + 4 + 1)%nat with (q + 9)%nat by lia. repeat split; eauto; lia. }
  rewrite (proj1 (read_values Utf8 b layer_c _ d2 ltac:(is_sized) ltac:(is_distinct) ltac:(in_names)) Vc). eauto.
  lia.
Qed.
Lemma read_layer_iff c codec comp b o x h : is_file b -> codec_name codec comp ->
  (read_layer c comp {| contents := b; pos := o |} = Ok (x, h) <-> exists o', block_at c codec b o x o' /\ h = {| contents := b; pos := o' |}).
Proof.
  intros Hf Hc. unfold read_layer. split.
  - intros H. apply rbind_ok in H as ([d h1] & Hh & H). apply (block_header b o d h1 Hf) in Hh as (name & ty & L & N & T & Gn & Gt & Gw & Gh & Gc & Gs & ->).
    set (q := (o + 2 + Z.to_nat (u16 b o))%nat) in *. rewrite Gs in H. cbn [rbind] in H. rewrite fread_slice in H.
    apply rbind_ok in H as (data & Hd & H). rewrite Gt in H. cbn [rbind] in H. apply rbind_ok in H as (dt & Hdt & H). apply dparse_iff in Hdt as [Hin ->].
    apply rbind_ok in H as (its & Hi & H). apply (frombuffer_iff (dsize dt) data its (dsize_pos dt Hin)) in Hi as (m & Lm & ->).
    rewrite Gc, Gh, Gw, Gn in H. cbn [rbind] in H. rewrite chunks_length in H.
    pose proof (byte_range b (q + 8) Hf) as Rk.
    match type of H with (if Nat.eqb m ?p then _ else _) = _ => destruct (Nat.eqb_spec m p) as [Em|]; [|discriminate] end.
    apply ok_inj in H. injection H as <- <-. rewrite (unpack_iff c codec comp _ _ Hc) in Hd.
    eexists. split; [|reflexivity].
    replace (1 <? byte b (q + 8)) with (1 <? Z.to_nat (byte b (q + 8)))%nat in * by (destruct (Nat.ltb_spec 1 (Z.to_nat (byte b (q + 8)))), (Z.ltb_spec 1 (byte b (q + 8))); try reflexivity; lia).
    apply Block; try assumption. rewrite Lm, Em. f_equal. fold q.
    destruct (Nat.ltb_spec 1 (Z.to_nat (byte b (q + 8)))); cbn [fold_right].
    + rewrite Nat.max_r by lia. ring.
    + rewrite Nat.max_l by lia. ring.
  - intros (o' & H & ->). destruct H as [name dt data n q w hh k p shape L N T Hin Hu Ld].
    destruct (block_header_ok b o name (type_code dt) Hf L N T) as (d & h1 & Hh). rewrite Hh. cbn [rbind].
    apply (block_header b o d h1 Hf) in Hh as (name' & ty' & L' & N' & T' & Gn & Gt & Gw & Gh & Gc & Gs & ->).
    fold n in N', Gw, Gh, Gc, Gs, T'. fold n. fold q in Gw, Gh, Gc, Gs, T'. fold q.
    assert (En : name' = name) by (destruct N as (t & D & ->), N' as (t' & D' & ->); rewrite D in D'; apply ok_inj in D'; congruence).
    assert (Et : ty' = type_code dt) by (destruct T as (t & D & E0), T' as (t' & D' & ->); rewrite D in D'; apply ok_inj in D'; congruence).
    subst name' ty'. rewrite Gs. cbn [rbind]. rewrite fread_slice. fold p. apply (unpack_iff c codec comp _ _ Hc) in Hu. rewrite Hu. cbn [rbind].
    rewrite Gt. cbn [rbind]. rewrite (proj2 (dparse_iff (type_code dt) dt)) by auto. cbn [rbind].
    rewrite (proj2 (frombuffer_iff (dsize dt) data (chunks (hh * w * Nat.max 1 k) (dsize dt) data) (dsize_pos dt Hin))) by eauto. cbn [rbind].
    rewrite Gc, Gh, Gw, Gn. cbn [rbind]. rewrite chunks_length. pose proof (byte_range b (q + 8) Hf) as Rk.
    replace (1 <? byte b (q + 8)) with (1 <? k)%nat by (unfold k; destruct (Nat.ltb_spec 1 (Z.to_nat (byte b (q + 8)))), (Z.ltb_spec 1 (byte b (q + 8))); try reflexivity; lia).
    fold w hh k. fold shape. replace (Nat.eqb _ _) with true; [reflexivity|]. symmetry. apply Nat.eqb_eq. unfold shape.
    destruct (Nat.ltb_spec 1 k); cbn [fold_right]; [rewrite Nat.max_r by lia; ring|rewrite Nat.max_l by lia; ring].
Qed.
(** the blocks behind the first *)
Lemma read_layers_iff c codec comp b : is_file b -> codec_name codec comp -> forall m o acc out,
  read_layers c comp m acc {| contents := b; pos := o |} = Ok out <-> exists ls e, blocks_at c codec b m o ls e /\ out = fold_left lput ls acc.
Proof.
  intros Hf Hc. induction m as [|m IH]; intros o acc out; cbn [read_layers].
  - split.
    + intros H. apply ok_inj in H. exists [], o. split; [constructor|auto].
    + intros (ls & e & H & ->). inversion H; subst. reflexivity.
  - split.
    + intros H. apply rbind_ok in H as ([x h'] & Hx & H). apply (read_layer_iff c codec comp b o x h' Hf Hc) in Hx as (o' & Hx & ->).
      apply IH in H as (ls & e & Hl & ->). exists (x :: ls), e. split; [econstructor; eauto|reflexivity].
    + intros (ls & e & H & ->). inversion H as [|m0 o0 o' x l e' Hx Hl]; subst.
      rewrite (proj2 (read_layer_iff c codec comp b o x _ Hf Hc)) by eauto. cbn [rbind]. apply IH. eauto.
Qed.
(** the images a list of blocks stands for: of several blocks of the same name the last *)
Definition last_named (ls : list layer) (x : layer) : Prop := exists a z, ls = a ++ x :: z /\ ~ In (lname x) (map lname z).
Definition pictures (ls out : list layer) : Prop := NoDup (map lname out) /\ forall x, In x out <-> last_named ls x.
Lemma lput_in l x y : NoDup (map lname l) -> (In y (lput l x) <-> y = x \/ (In y l /\ lname y <> lname x)).
Proof.
  induction l as [|a l IH]; intros H; cbn [lput].
  - cbn. intuition.
  - cbn [map] in H. inversion H as [|? ? Ha Hl]; subst. destruct (zs_eqb (lname x) (lname a)) eqn:E.
    + apply zs_eqb_eq in E. split.
      * intros [->|I]; [auto|]. right. split; [right; exact I|]. intros Q. apply Ha. rewrite <- E, <- Q. apply in_map. exact I.
      * intros [->|[[->|I] N]]; [left; reflexivity|congruence|right; exact I].
    + assert (Nx : lname a <> lname x) by (intros Q; rewrite Q, zs_eqb_refl in E; discriminate).
      cbn [In]. rewrite IH by exact Hl. intuition (subst; auto).
Qed.
Lemma last_named_snoc ls x y : last_named (ls ++ [x]) y <-> y = x \/ (last_named ls y /\ lname y <> lname x).
Proof.
  split.
  - intros (a & z & E & N). destruct z as [|w z] using rev_ind.
    + apply app_inj_tail in E as [-> ->]. auto.
    + clear IHz. replace (a ++ y :: z ++ [w]) with ((a ++ y :: z) ++ [w]) in E by (rewrite <- app_assoc; reflexivity). apply app_inj_tail in E as [-> ->].
      rewrite map_app, in_app_iff in N. cbn in N. right. split; [exists a, z; split; [reflexivity|tauto]|]. intros Q. apply N. right. left. auto.
  - intros [->|[(a & z & -> & N) Q]].
    + exists ls, []. split; [reflexivity|intros []].
    + exists a, (z ++ [x]). split; [rewrite <- app_assoc; reflexivity|]. rewrite map_app, in_app_iff. cbn. intros [I|[I|[]]]; congruence.
Qed.
Lemma pictures_lput ls : pictures ls (fold_left lput ls []).
Proof.
  induction ls as [|x ls [N I]] using rev_ind.
  - split; [constructor|]. intros x. split; [intros []|]. intros (a & z & E & _). destruct a; discriminate.
  - rewrite fold_left_app. cbn [fold_left]. split; [exact (proj1 (lput_names _ x N))|]. intros y. rewrite (lput_in _ x y N), I, last_named_snoc. reflexivity.
Qed.
Lemma lput_first x ls : fold_left lput ls [x] = fold_left lput (x :: ls) [].
Proof. reflexivity. Qed.

(** the height behind a stored number: floats as they are; integers as such or spread over the range of the heights *)
Definition least (dt : dtype) : Z := match dt with I n => - 2 ^ (8 * Z.of_nat n - 1) | _ => 0 end.
Definition height_of (scaled : bool) (lo hi : f64) (dt : dtype) (data : bytes) (o : nat) : f64 :=
  let int v := if scaled
    then fadd (fmul (fdiv (fadd (f64_of_Z v) (f64_of_Z (least dt))) (f64_of_Z (2 ^ (8 * Z.of_nat (dsize dt)) - 1))) (fsub hi lo)) lo
    else f64_of_Z v in
  match dt with
  | F8 => f64_at data o
  | F4 => single_at data o
  | U n => int (uint n data o)
  | I n => int (two_compl (8 * Z.of_nat n) (uint n data o))
  end.
Lemma dspan dt : In dt dtypes -> is_int dt = true -> dmax dt - dmin dt = 2 ^ (8 * Z.of_nat (dsize dt)) - 1.
Proof. intros H. cbn in H. repeat (destruct H as [<- | H]; [first [discriminate|reflexivity]|]). destruct H. Qed.
Lemma layer_heights_iff scaled lo hi x h w hs : lshape x = [h; w] -> In (ldt x) dtypes -> length (lbytes x) = (h * w * dsize (ldt x))%nat ->
  (layer_heights scaled lo hi x = Ok hs <->
    (scaled = true -> is_int (ldt x) = true) /\ hs = grid h w (fun i j => height_of scaled lo hi (ldt x) (lbytes x) ((i * w + j) * dsize (ldt x)))).
Proof.
  intros Sh Hin L. unfold layer_heights. rewrite Sh. set (data := lbytes x) in *. set (dt := ldt x) in *.
  rewrite (proj2 (frombuffer_iff (dsize dt) data (chunks (h * w) (dsize dt) data) (dsize_pos dt Hin))) by eauto. cbn [rbind].
  assert (G : forall (g : bytes -> f64), (forall o, (o + dsize dt <= length data)%nat -> g (slice o (dsize dt) data) = height_of scaled lo hi dt data o) ->
    reshape h w (map g (chunks (h * w) (dsize dt) data)) = Ok (grid h w (fun i j => height_of scaled lo hi dt data ((i * w + j) * dsize dt)))).
  { intros g Hg. rewrite (reshape_ok (g [])) by (rewrite map_length, chunks_length; reflexivity). f_equal. apply grid_ext'. intros i j Hi Hj.
    assert (K : (i * w + j < h * w)%nat) by nia.
    rewrite map_nth, chunks_nth by exact K. apply Hg. rewrite L. nia. }
  destruct dt as [n|n| |] eqn:Edt; cbn [dsize] in *.
  - cbn [rbind]. rewrite G.
    + split; [intros H; apply ok_inj in H; auto|intros [_ ->]; reflexivity].
    + intros o Lo. cbn [height_of]. rewrite unle_slice by exact Lo. destruct scaled; [|reflexivity]. unfold unscale_height. rewrite (dspan (U n) Hin eq_refl). reflexivity.
  - cbn [rbind]. rewrite G.
    + split; [intros H; apply ok_inj in H; auto|intros [_ ->]; reflexivity].
    + intros o Lo. cbn [height_of]. rewrite unle_slice by exact Lo. change (to_signed n (uint n data o)) with (two_compl (8 * Z.of_nat n) (uint n data o)).
      destruct scaled; [|reflexivity]. unfold unscale_height. rewrite (dspan (I n) Hin eq_refl). reflexivity.
  - destruct scaled; cbn [rbind].
    + split; [discriminate|intros [H _]; discriminate (H eq_refl)].
    + rewrite G; [|intros o Lo; rewrite unle_slice by exact Lo; reflexivity]. split; [intros H; apply ok_inj in H; split; [discriminate|auto]|intros [_ ->]; reflexivity].
  - destruct scaled; cbn [rbind].
    + split; [discriminate|intros [H _]; discriminate (H eq_refl)].
    + rewrite G; [|intros o Lo; rewrite unle_slice by exact Lo; reflexivity]. split; [intros H; apply ok_inj in H; split; [discriminate|auto]|intros [_ ->]; reflexivity].
Qed.
(** what the head says *)
Lemma head_reads b : is_file b -> values_ok Utf8 b 4 sflz_layout = true -> let d := values Utf8 b 4 sflz_layout in
  exists comp, codec_name (byte b 51) comp /\ hstr d "compression_algorithm" = Ok comp /\ hint d "num_layers" = Ok (u16 b 47) /\
  hflt d "step_x" = Ok (f64_at b 14) /\ hflt d "step_y" = Ok (f64_at b 22) /\ hbool d "scaled" = Ok (negb (byte b 30 =? 0)) /\
  hflt d "min_value" = Ok (f64_at b 31) /\ hflt d "max_value" = Ok (f64_at b 39).
Proof.
  intros Hf V d. pose proof (proj1 (head_values b Hf) V) as (L & _ & R).
  assert (C : exists comp, codec_name (byte b 51) comp).
  { unfold codec_name, cname. destruct (Z.eqb_spec (byte b 51) 0); [eauto|]. destruct (Z.eqb_spec (byte b 51) 1); [eauto|].
    destruct (Z.eqb_spec (byte b 51) 2); [eauto|lia]. }
  destruct C as (comp & C). exists comp. split; [exact C|]. split.
  - unfold hstr, dkey. assert (G : dget d "compression_algorithm" = Some (conv_val cread (raw_field fmt_B (slice 51 1 b)))) by reflexivity.
    rewrite G. cbn [rbind]. unfold fmt_B. cbn [raw_field field]. rewrite unle_slice by lia. rewrite uint1 by exact Hf.
    unfold conv_val, cread. unfold codec_name in C. rewrite C. reflexivity.
  - subst d. rewrite (hint_u _ _ _ _ "num_layers" 43%nat 2%nat V eq_refl).
    rewrite (hflt_64 _ _ _ _ "step_x" 10%nat V eq_refl), (hflt_64 _ _ _ _ "step_y" 18%nat V eq_refl),
      (hflt_64 _ _ _ _ "min_value" 27%nat V eq_refl), (hflt_64 _ _ _ _ "max_value" 35%nat V eq_refl).
    repeat (split; [reflexivity|]). split; [|split; reflexivity].
    unfold hbool, dkey. rewrite (proj1 (locate_spec Utf8 b "scaled" sflz_layout 4 26 FBool eq_refl)). cbn [rbind field calcsize].
    change (4 + 26)%nat with 30%nat. rewrite unle_slice by lia. rewrite uint1 by exact Hf. reflexivity.
Qed.
Lemma read_sflz_head c im b r : is_file b -> (read_sflz c im (opened b) = Ok r <->
  head_ok b /\ exists comp, codec_name (byte b 51) comp /\
  match wanted b im with
  | O => r = {| sf_heights := None; sf_step_x := f64_at b 14; sf_step_y := f64_at b 22; sf_layers := [] |}
  | S m => exists x o' ls e heights, block_at c (byte b 51) b 52 x o' /\ blocks_at c (byte b 51) b m o' ls e /\
      (if zs_eqb (lname x) (str "topography") then rmap Some (layer_heights (negb (byte b 30 =? 0)) (f64_at b 31) (f64_at b 39) x) else Ok None) = Ok heights /\
      r = {| sf_heights := heights; sf_step_x := f64_at b 14; sf_step_y := f64_at b 22;
             sf_layers := fold_left lput ls (match heights with Some _ => [] | None => [x] end) |}
  end).
Proof.
  intros Hf. unfold read_sflz, opened. rewrite fread_slice. change (slice 0 4 b) with (firstn 4 b).
  destruct (zs_eqb (firstn 4 b) (str "SFLZ")) eqn:Em; cbn [negb].
  2:{ split; [discriminate|]. intros ((_ & M & _) & _). rewrite M in Em. discriminate. }
  apply zs_eqb_eq in Em. rewrite Em. change (0 + length (str "SFLZ"))%nat with 4%nat.
  assert (Sz : Forall sized sflz_layout) by is_sized. assert (Nd : NoDup (names sflz_layout)) by is_distinct.
  destruct (values_ok Utf8 b 4 sflz_layout) eqn:V.
  2:{ split.
      - intros H. apply rbind_ok in H as (dh & H & _). apply (proj2 (read_layout_values Utf8 sflz_layout b 4 Sz Nd)) in H as [H _]. congruence.
      - intros ((L & _ & T & R) & _). rewrite (proj2 (head_values b Hf)) in V by auto. discriminate. }
  rewrite (proj1 (read_layout_values Utf8 sflz_layout b 4 Sz Nd) V). cbn [rbind]. change (4 + lsize sflz_layout)%nat with 52%nat.
  destruct (head_reads b Hf V) as (comp & C & G1 & G2 & G3 & G4 & G5 & G6 & G7).
  rewrite G1, G2, G3, G4, G5, G6, G7. cbn [rbind]. fold (wanted b im).
  assert (Hd : head_ok b) by (destruct (proj1 (head_values b Hf) V) as (L & T & R); repeat split; auto; lia).
  destruct (wanted b im) as [|m] eqn:Ew.
  - split.
    + intros H. apply ok_inj in H. split; [exact Hd|]. exists comp. auto.
    + intros (_ & comp' & _ & ->). reflexivity.
  - split.
    + intros H. split; [exact Hd|]. exists comp. split; [exact C|].
      apply rbind_ok in H as ([x h3] & Hx & H). apply (read_layer_iff c _ comp b 52 x h3 Hf C) in Hx as (o' & Hx & ->).
      apply rbind_ok in H as (heights & Hh & H). apply rbind_ok in H as (ls & Hl & H). apply ok_inj in H.
      apply (read_layers_iff c _ comp b Hf C) in Hl as (ls' & e & Hl & ->). exists x, o', ls', e, heights. auto.
    + intros (_ & comp' & C' & x & o' & ls & e & heights & Hx & Hl & Hh & ->).
      rewrite (proj2 (read_layer_iff c _ comp b 52 x _ Hf C)) by eauto. cbn [rbind]. rewrite Hh. cbn [rbind].
      rewrite (proj2 (read_layers_iff c _ comp b Hf C m o' _ (fold_left lput ls match heights with Some _ => [] | None => [x] end))) by eauto. reflexivity.
Qed.

(** ** C113 *)
(** the first block has no channels (heights with channels are passed on by the code and not modelled) *)
Definition one_channel (b : bytes) : Prop := byte b (52 + 2 + Z.to_nat (u16 b 52) + 8) <= 1.
Lemma first_shape c codec b x o' : one_channel b -> block_at c codec b 52 x o' ->
  let q := (54 + Z.to_nat (u16 b 52))%nat in
  lshape x = [Z.to_nat (u32 b (q + 4)); Z.to_nat (u32 b q)] /\ In (ldt x) dtypes /\
  length (lbytes x) = (Z.to_nat (u32 b (q + 4)) * Z.to_nat (u32 b q) * dsize (ldt x))%nat.
Proof.
  intros H1 H. destruct H as [name dt data n q w h k p shape L N T Hin Hu Ld]. cbn [lshape ldt lbytes].
  assert (K : (k <= 1)%nat) by (subst k q n; unfold one_channel in H1; change (52 + 2)%nat with 54%nat in *; lia).
  change (54 + Z.to_nat (u16 b 52))%nat with q. cbn zeta. fold w h. split; [subst shape; destruct (Nat.ltb_spec 1 k); [lia|reflexivity]|].
  split; [exact Hin|]. rewrite Ld, Nat.max_l by lia. ring.
Qed.
(** The heights, the steps and the images are what the file says, whoever wrote it. *)
Theorem C113_contents : forall c im (b : bytes) r, is_file b -> one_channel b -> read_sflz c im (opened b) = Ok r ->
  head_ok b /\ sf_step_x r = f64_at b 14 /\ sf_step_y r = f64_at b 22 /\
  exists ls e, blocks_at c (byte b 51) b (wanted b im) 52 ls e /\
  match ls with
  | [] => sf_heights r = None /\ sf_layers r = []
  | x :: rest =>
    (lname x = str "topography" ->
      pictures rest (sf_layers r) /\ (byte b 30 <> 0 -> ldt x <> F4 /\ ldt x <> F8) /\
      let q := (54 + Z.to_nat (u16 b 52))%nat in let w := Z.to_nat (u32 b q) in let h := Z.to_nat (u32 b (q + 4)) in
      exists hs, sf_heights r = Some hs /\
        table_is hs h w (fun i j z => z = height_of (negb (byte b 30 =? 0)) (f64_at b 31) (f64_at b 39) (ldt x) (lbytes x) ((i * w + j) * dsize (ldt x)))) /\
    (lname x <> str "topography" -> pictures ls (sf_layers r) /\ sf_heights r = None)
  end.
Proof.
  intros c im b r Hf H1 H. apply (read_sflz_head c im b r Hf) in H as (Hd & comp & C & H). split; [exact Hd|].
  destruct (wanted b im) as [|m].
  - subst r. cbn [sf_step_x sf_step_y sf_heights sf_layers]. repeat (split; [reflexivity|]). exists [], 52%nat. split; [constructor|auto].
  - destruct H as (x & o' & ls & e & heights & Hx & Hl & Hh & ->). cbn [sf_step_x sf_step_y sf_heights sf_layers]. repeat (split; [reflexivity|]).
    exists (x :: ls), e. split; [econstructor; eauto|]. destruct (first_shape c _ b x o' H1 Hx) as (Sh & Hin & Ld).
    destruct (zs_eqb (lname x) (str "topography")) eqn:En.
    + apply zs_eqb_eq in En. split; [|congruence]. intros _. apply rmap_ok in Hh as (hs & Hh & ->).
      apply (layer_heights_iff _ _ _ x _ _ hs Sh Hin Ld) in Hh as (Hi & ->). split; [apply pictures_lput|]. split.
      * intros Hs. destruct (Z.eqb_spec (byte b 30) 0); [contradiction|]. specialize (Hi eq_refl). split; intros Q; rewrite Q in Hi; discriminate.
      * eexists. split; [reflexivity|]. apply grid_is. reflexivity.
    + split; [intros Q; rewrite Q in En; discriminate|]. intros _. apply ok_inj in Hh. subst heights. split; [|reflexivity].
      rewrite lput_first. apply pictures_lput.
Qed.
(** Exactly the complete files are read. *)
Theorem C113_reads : forall c im (b : bytes), is_file b -> one_channel b ->
  ((exists r, read_sflz c im (opened b) = Ok r) <->
   head_ok b /\ exists ls e, blocks_at c (byte b 51) b (wanted b im) 52 ls e /\
     (forall x rest, ls = x :: rest -> lname x = str "topography" -> byte b 30 <> 0 -> ldt x <> F4 /\ ldt x <> F8)).
Proof.
  intros c im b Hf H1. split.
  - intros (r & H). destruct (C113_contents c im b r Hf H1 H) as (Hd & _ & _ & ls & e & Hl & M). split; [exact Hd|]. exists ls, e. split; [exact Hl|].
    intros x rest -> N S0. destruct M as (M & _). exact (proj1 (proj2 (M N)) S0).
  - intros (Hd & ls & e & Hl & F).
    assert (C : exists comp, codec_name (byte b 51) comp).
    { destruct Hd as (_ & _ & _ & R). unfold codec_name, cname. destruct (Z.eqb_spec (byte b 51) 0); [eauto|]. destruct (Z.eqb_spec (byte b 51) 1); [eauto|].
      destruct (Z.eqb_spec (byte b 51) 2); [eauto|lia]. }
    destruct C as (comp & C). destruct (wanted b im) as [|m] eqn:Ew.
    + eexists. apply (read_sflz_head c im b _ Hf). split; [exact Hd|]. exists comp. split; [exact C|]. rewrite Ew. reflexivity.
    + inversion Hl as [|m0 o0 o' x l e' Hx Hr]; subst. destruct (first_shape c _ b x o' H1 Hx) as (Sh & Hin & Ld).
      assert (G : exists heights, (if zs_eqb (lname x) (str "topography") then rmap Some (layer_heights (negb (byte b 30 =? 0)) (f64_at b 31) (f64_at b 39) x) else Ok None) = Ok heights).
      { destruct (zs_eqb (lname x) (str "topography")) eqn:En; [|eauto]. apply zs_eqb_eq in En.
        destruct (layer_heights_iff (negb (byte b 30 =? 0)) (f64_at b 31) (f64_at b 39) x _ _
          (grid (Z.to_nat (u32 b (54 + Z.to_nat (u16 b 52) + 4))) (Z.to_nat (u32 b (54 + Z.to_nat (u16 b 52))))
            (fun i j => height_of (negb (byte b 30 =? 0)) (f64_at b 31) (f64_at b 39) (ldt x) (lbytes x) ((i * Z.to_nat (u32 b (54 + Z.to_nat (u16 b 52))) + j) * dsize (ldt x)))) Sh Hin Ld) as [_ K].
        rewrite K; [cbn; eauto|]. split; [|reflexivity]. intros S0. destruct (Z.eqb_spec (byte b 30) 0) as [|N0]; [discriminate|].
        destruct (F x l eq_refl En N0) as [F1 F2]. destruct (ldt x); try reflexivity; congruence. }
      destruct G as (heights & G). eexists. apply (read_sflz_head c im b _ Hf). split; [exact Hd|]. exists comp. split; [exact C|]. rewrite Ew.
      exists x, o', l, e, heights. repeat (split; [eassumption|]). reflexivity.
Qed.
(** Asking for the images changes neither heights nor steps. *)
Theorem C113_images : forall c (b : bytes) r, is_file b -> 1 <= u16 b 47 -> read_sflz c true (opened b) = Ok r ->
  exists r', read_sflz c false (opened b) = Ok r' /\ sf_heights r' = sf_heights r /\ sf_step_x r' = sf_step_x r /\ sf_step_y r' = sf_step_y r /\
    (sf_heights r <> None -> sf_layers r' = []).
Proof.
  intros c b r Hf Hn H. apply (read_sflz_head c true b r Hf) in H as (Hd & comp & C & H). unfold wanted in H.
  destruct (Z.to_nat (u16 b 47)) as [|m] eqn:Em; [lia|]. destruct H as (x & o' & ls & e & heights & Hx & Hl & Hh & ->).
  eexists. split; [apply (read_sflz_head c false b _ Hf); split; [exact Hd|]; exists comp; split; [exact C|]; cbn [wanted];
    exists x, o', [], o', heights; split; [exact Hx|]; split; [constructor|]; split; [exact Hh|reflexivity]|].
  cbn [sf_heights sf_step_x sf_step_y sf_layers fold_left]. repeat (split; [reflexivity|]). destruct heights; congruence.
Qed.

(** the contents of m blocks are there as announced *)
Fixpoint all_there (b : bytes) (m o : nat) : Prop :=
  match m with
  | O => True
  | S m' => let o' := (o + 18 + Z.to_nat (u16 b o) + Z.to_nat (u32 b (o + 14 + Z.to_nat (u16 b o))))%nat in (o' <= length b)%nat /\ all_there b m' o'
  end.
Lemma byte_app b t o : (o < length b)%nat -> byte (b ++ t) o = byte b o.
Proof. intros H. unfold byte. apply app_nth1. exact H. Qed.
Lemma block_app c codec b t o x o' : block_at c codec b o x o' -> (o + 18 + Z.to_nat (u16 b o) + Z.to_nat (u32 b (o + 14 + Z.to_nat (u16 b o))) <= length b)%nat ->
  block_at c codec (b ++ t) o x o' /\ o' = (o + 18 + Z.to_nat (u16 b o) + Z.to_nat (u32 b (o + 14 + Z.to_nat (u16 b o))))%nat.
Proof.
  intros H W. destruct H as [name dt data n q w h k p shape L N T Hin Hu Ld].
  assert (E0 : u16 (b ++ t) o = u16 b o) by (apply uint_app; subst n q; lia).
  fold n in W |- *. assert (Eq : (o + 14 + n = q + 12)%nat) by (subst q; lia). rewrite Eq in *.
  assert (Ep : (q + 16 + Z.to_nat (u32 b (q + 12)) <= length b)%nat) by (subst q; lia).
  assert (El : length p = Z.to_nat (u32 b (q + 12))) by (unfold p; apply slice_len; exact Ep).
  split; [|rewrite El; subst q; lia].
  pose proof (Block c codec (b ++ t) o name dt data) as B. cbv zeta in B. rewrite E0 in B. fold n in B. fold q in B.
  replace (u32 (b ++ t) q) with (u32 b q) in B by (symmetry; apply uint_app; lia).
  replace (u32 (b ++ t) (q + 4)) with (u32 b (q + 4)) in B by (symmetry; apply uint_app; lia).
  replace (u32 (b ++ t) (q + 12)) with (u32 b (q + 12)) in B by (symmetry; apply uint_app; lia).
  rewrite byte_app in B by lia. rewrite (slice_app _ _ b t Ep) in B. fold w h k p shape in B. apply B; auto.
  - rewrite app_length. lia.
  - destruct N as (s & D & E). exists s. rewrite slice_app by (subst q; lia). auto.
  - destruct T as (s & D & E). exists s. rewrite slice_app by lia. auto.
Qed.
Lemma blocks_app c codec b t : forall m o ls e, blocks_at c codec b m o ls e -> all_there b m o -> blocks_at c codec (b ++ t) m o ls e.
Proof.
  induction m as [|m IH]; intros o ls e H W; inversion H as [|m0 o0 o' x l e' Hx Hl]; subst; [constructor|].
  destruct W as [W1 W2]. destruct (block_app c codec b t o x o' Hx W1) as [B ->]. econstructor; [exact B|]. apply IH; assumption.
Qed.
(** Bytes behind the last block are ignored. *)
Theorem C113_trailing : forall c im (b t : bytes) r, is_file (b ++ t) -> all_there b (wanted b im) 52 ->
  read_sflz c im (opened b) = Ok r -> read_sflz c im (opened (b ++ t)) = Ok r.
Proof.
  intros c im b t r Hf W H. assert (Hb : is_file b) by (apply Forall_app in Hf; tauto).
  apply (read_sflz_head c im b r Hb) in H as ((L & M & T & R) & comp & C & H).
  apply (read_sflz_head c im (b ++ t) r Hf). rewrite !byte_app by lia.
  assert (Ew : wanted (b ++ t) im = wanted b im) by (unfold wanted; destruct im; [|reflexivity]; unfold u16; rewrite uint_app by lia; reflexivity).
  rewrite Ew. unfold f64_at. rewrite !uint_app by lia. split.
  - split; [rewrite app_length; lia|]. split; [rewrite firstn_app, M, (proj2 (Nat.sub_0_le 4 (length b))) by lia; reflexivity|].
    split; [rewrite slice_app by lia; exact T|rewrite byte_app by lia; exact R].
  - exists comp. split; [exact C|]. destruct (wanted b im) as [|m]; [exact H|]. destruct H as (x & o' & ls & e & heights & Hx & Hl & Hh & Er).
    destruct W as [W1 W2]. destruct (block_app c _ b t 52 x o' Hx W1) as [B E]. subst o'.
    exists x, (52 + 18 + Z.to_nat (u16 b 52) + Z.to_nat (u32 b (52 + 14 + Z.to_nat (u16 b 52))))%nat, ls, e, heights. split; [exact B|]. split; [apply blocks_app; assumption|]. split; assumption.
Qed.
(** A file whose contents are not compressed and that is cut anywhere before the end of the last block is refused. *)
Lemma firstn_back k (b : bytes) : b = firstn k b ++ skipn k b. Proof. symmetry. apply firstn_skipn. Qed.
Lemma block_cut c b k o x o' x' o'' : (k <= length b)%nat -> block_at c 0 b o x o' -> block_at c 0 (firstn k b) o x' o'' -> (o' <= k)%nat /\ o'' = o'.
Proof.
  intros Hk H H'. destruct H as [name dt data n q w h kk p shape L N T Hin Hu Ld]. inversion H' as [name' dt' data' n' q' w' h' kk' p' shape' L' N' T' Hin' Hu' Ld' Ex Eo].
  rewrite firstn_length in L'. pose proof (firstn_back k b) as B. set (b' := firstn k b) in *. set (t := skipn k b) in *.
  assert (Lb : length b' = k) by (unfold b'; rewrite firstn_length; lia).
  assert (En : n' = n) by (unfold n, n'; f_equal; rewrite B; symmetry; apply uint_app; subst n' q'; lia).
  assert (Eq : q' = q) by (unfold q', q; rewrite En; reflexivity). 
  assert (U4 : forall i, (q + i + 4 <= k)%nat -> u32 b' (q + i) = u32 b (q + i)) by (intros i Hi; rewrite B; symmetry; apply uint_app; lia).
  assert (Ew : w' = w) by (unfold w, w'; rewrite Eq; pose proof (U4 0%nat ltac:(lia)) as U; rewrite Nat.add_0_r in U; rewrite U; reflexivity).
  assert (Eh : h' = h) by (unfold h, h'; rewrite Eq, U4 by lia; reflexivity).
  assert (Ek : kk' = kk) by (unfold kk, kk'; rewrite Eq; f_equal; rewrite B; symmetry; apply byte_app; lia).
  assert (Et : dt' = dt).
  { destruct T as (s & D & E), T' as (s' & D' & E'). rewrite Eq in D'. rewrite B in D. rewrite slice_app in D by lia. rewrite D in D'. apply ok_inj in D'. subst s'.
    pose proof (proj2 (dparse_iff (type_code dt) dt) (conj Hin eq_refl)) as P. pose proof (proj2 (dparse_iff (type_code dt') dt') (conj Hin' eq_refl)) as P'.
    rewrite E' , <- E, P in P'. apply ok_inj in P'. auto. }
  inversion Hu; inversion Hu'; subst data data'.
  assert (Lp : length p' = length p) by (rewrite Ld, Ld', Ew, Eh, Ek, Et; reflexivity).
  assert (Lq : (q' + 16 + length p' <= k)%nat).
  { assert (G : (length p' <= length b' - (q' + 16))%nat) by (unfold p'; rewrite slice_length; lia). lia. }
  rewrite Eq, Lp in *. split; [exact Lq|reflexivity].
Qed.
Lemma blocks_cut c b k : (k <= length b)%nat -> forall m o ls e ls' e', (o <= k)%nat -> blocks_at c 0 b m o ls e -> blocks_at c 0 (firstn k b) m o ls' e' -> (e <= k)%nat.
Proof.
  intros Hk. induction m as [|m IH]; intros o ls e ls' e' Ho H H'; inversion H as [|m0 o0 o1 x l e1 Hx Hl]; inversion H' as [|m0' o0' o1' x' l' e1' Hx' Hl']; subst; [exact Ho|].
  destruct (block_cut c b k o x o1 x' o1' Hk Hx Hx') as [A ->]. exact (IH _ _ _ _ _ A Hl Hl').
Qed.
Lemma blocks_end c codec b : forall m o ls e, (o <= length b)%nat -> blocks_at c codec b m o ls e -> (e <= length b)%nat.
Proof.
  induction m as [|m IH]; intros o ls e Ho H; inversion H as [|m0 o0 o1 x l e1 Hx Hl]; subst; [exact Ho|].
  apply (IH _ _ _) in Hl; [exact Hl|]. destruct Hx as [name dt data n q w h k p shape L N T Hin Hu Ld]. pose proof (slice_length (q + 16) (Z.to_nat (u32 b (q + 12))) b) as G. fold p in G. lia.
Qed.
Theorem C113_cut : forall c im (b : bytes) ls e k, is_file b -> (52 <= length b)%nat -> byte b 51 = 0 ->
  blocks_at c 0 b (wanted b im) 52 ls e -> (k < e)%nat -> is_ok (read_sflz c im (opened (firstn k b))) = false.
Proof.
  intros c im b ls e k Hf Hl Hz Hb Hk. destruct (read_sflz c im (opened (firstn k b))) as [r|] eqn:E; [|reflexivity]. exfalso.
  pose proof (blocks_end c 0 b _ _ _ _ Hl Hb) as He.
  assert (Hf' : is_file (firstn k b)) by (apply is_file_firstn; exact Hf).
  apply (read_sflz_head c im _ r Hf') in E as ((L & _) & comp & C & E). rewrite firstn_length in L.
  pose proof (firstn_back k b) as B. set (b' := firstn k b) in *. set (t := skipn k b) in *.
  assert (Lb : length b' = k) by (unfold b'; rewrite firstn_length; lia).
  assert (Ec : byte b' 51 = 0) by (rewrite <- Hz, B; symmetry; apply byte_app; lia). assert (Eb : firstn k b = b') by reflexivity. clearbody b' t. rewrite Ec in C, E.
  assert (Ew : wanted b' im = wanted b im) by (unfold wanted; destruct im; [|reflexivity]; rewrite B; unfold u16; rewrite uint_app by lia; reflexivity).
  rewrite Ew in E. destruct (wanted b im) as [|m].
  - inversion Hb. lia.
  - destruct E as (x & o' & ls' & e' & heights & Hx & Hr & _).
    assert (Lk : (k <= length b)%nat) by lia. assert (L5 : (52 <= k)%nat) by lia.
    assert (G : (e <= k)%nat). { apply (blocks_cut c b k Lk (S m) 52 ls e (x :: ls') e' L5 Hb). rewrite Eb. econstructor; eauto. } lia.
Qed.

(** A file of another program: version 7, heights 2 x 2 as unsigned bytes between 1 and 3, an image of three channels, nothing compressed. *)
Definition foreign : bytes :=
  str "SFLZ" ++ str "7         " ++ double (f64_of_Z 2) ++ double (f64_of_Z 4) ++ [1] ++ double (f64_of_Z 1) ++ double (f64_of_Z 3) ++ number 2 2 ++ number 2 9 ++ [0] ++
  block (str "topography") 2 2 0 (U 1) [0; 255; 255; 0] ++ block (str "Photo  ") 1 1 3 (U 1) [10; 20; 30].
Definition photo : layer := {| lname := str "Photo"; lshape := [1; 1; 3]%nat; ldt := U 1; lbytes := [10; 20; 30] |}.
Theorem C113_example : forall c,
  is_file foreign /\ one_channel foreign /\ all_there foreign (wanted foreign true) 52 /\ byte foreign 51 = 0 /\
  exists r, read_sflz c true (opened foreign) = Ok r /\ sf_layers r = [photo] /\ sf_step_x r = f64_of_Z 2 /\ sf_step_y r = f64_of_Z 4 /\
    sf_heights r = Some [[f64_of_Z 1; f64_of_Z 3]; [f64_of_Z 3; f64_of_Z 1]].
Proof.
  intros c. assert (F : is_file foreign).
  { unfold is_file. apply Forall_forall. intros x Hx. assert (A : forallb (fun x => (0 <=? x) && (x <? 256)) foreign = true) by (vm_compute; reflexivity).
    apply (proj1 (forallb_forall _ _) A) in Hx. apply andb_prop in Hx as [X Y]. apply Z.leb_le in X. apply Z.ltb_lt in Y. lia. }
  split; [exact F|]. split; [vm_compute; discriminate|]. split; [vm_compute; repeat split; repeat constructor|]. split; [reflexivity|].
  assert (O : one_channel foreign) by (vm_compute; discriminate).
  set (show := fun r : sflz => (option_map (map (map bits_of_b64)) (sf_heights r), bits_of_b64 (sf_step_x r), bits_of_b64 (sf_step_y r), sf_layers r)).
  assert (E : rmap show (read_sflz c true (opened foreign)) =
    Ok (Some (map (map bits_of_b64) [[f64_of_Z 1; f64_of_Z 3]; [f64_of_Z 3; f64_of_Z 1]]), bits_of_b64 (f64_of_Z 2), bits_of_b64 (f64_of_Z 4), [photo])) by (vm_compute; reflexivity).
  destruct (read_sflz c true (opened foreign)) as [r|]; [|discriminate]. cbn [rmap] in E. apply ok_inj in E. unfold show in E.
  pose proof (f_equal (fun p => fst (fst (fst p))) E) as E1. pose proof (f_equal (fun p => snd (fst (fst p))) E) as E2.
  pose proof (f_equal (fun p => snd (fst p)) E) as E3. pose proof (f_equal snd E) as E4. cbn [fst snd] in E1, E2, E3, E4. clear E.
  exists r. split; [reflexivity|]. split; [exact E4|].
  split; [rewrite <- (b64_bits_id (sf_step_x r)), E2; apply b64_bits_id|]. split; [rewrite <- (b64_bits_id (sf_step_y r)), E3; apply b64_bits_id|].
  destruct (sf_heights r) as [hs|]; [|discriminate]. cbn [option_map] in E1. f_equal.
  assert (Q : forall l : list (list f64), map (map b64_of_bits) (map (map bits_of_b64) l) = l).
  { intros l. rewrite map_map. rewrite <- (map_id l) at 2. apply map_ext. intros row. rewrite map_map. rewrite <- (map_id row) at 2. apply map_ext. apply b64_bits_id. }
  rewrite <- (Q hs). assert (J : forall (A : Type) (x y : A), Some x = Some y -> x = y) by congruence. apply J in E1. rewrite E1. apply Q.
Qed.
Print Assumptions C113_contents. Print Assumptions C113_reads. Print Assumptions C113_images. Print Assumptions C113_trailing. Print Assumptions C113_cut. Print Assumptions C113_example.
