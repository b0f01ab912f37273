(** Headers and layers of the native format. *)
From Coq Require Import String Ascii ZArith Lia Bool Reals Lra.
From Coq Require Import List.
From Flocq Require Import Core.Core.
From Flocq Require Import IEEE754.BinarySingleNaN IEEE754.Binary IEEE754.Bits.
From Verif Require Import Base ModelBytes SpecBytes ProofBytes PropsLayout ModelUnits ProofFloat ModelSur ProofSur ProofCodec ModelFormats PropsTmd ModelSflz.
Import ListNotations.
Local Open Scope Z_scope.

(** ** What the caller must respect *)
(** zlib / lzma: what was compressed is decompressed; a stream that was cut raises *)
Definition lossless (z : zlib) : Prop := forall b, decompress z (compress z b) = Ok b.
Definition rejects_cut (z : zlib) : Prop := forall b k, (k < length (compress z b))%nat ->
  exists e, decompress z (firstn k (compress z b)) = Err e.
Definition known_compression (comp : pystr) : Prop := comp = str "none" \/ comp = str "zlib" \/ comp = str "lzma".
(** a layer name made of ASCII characters that does not end in a blank or NUL *)
Definition plain_name (s : pystr) : Prop :=
  ascii s /\ zlen s < 65536 /\ forall s' c, s = s' ++ [c] -> c <> 32 /\ c <> 0.
(** an image: a C-ordered array of one of the dtypes, h x w or h x w x channels with 1 to 255 channels *)
Definition image_shape (sh : list nat) : Prop :=
  match sh with
  | [h; w] => Z.of_nat h < 2 ^ 32 /\ Z.of_nat w < 2 ^ 32
  | [h; w; ch] => Z.of_nat h < 2 ^ 32 /\ Z.of_nat w < 2 ^ 32 /\ 1 <= Z.of_nat ch < 256
  | _ => False
  end.
(** the only change a layer undergoes: a channel axis of length one is dropped *)
Definition drop_single (l : layer) : layer :=
  {| lname := lname l; lshape := match lshape l with [h; w; 1%nat] => [h; w] | sh => sh end; ldt := ldt l; lbytes := lbytes l |}.
Record image_layer (c : codecs) (comp : pystr) (l : layer) : Prop := {
  il_name : plain_name (lname l);
  il_dtype : In (ldt l) dtypes;
  il_shape : image_shape (lshape l);
  il_bytes : length (lbytes l) = (fold_right Nat.mul 1 (lshape l) * dsize (ldt l))%nat;
  il_size : zlen (ccompress c comp (lbytes l)) < 2 ^ 32 }.

Lemma dtype_size dt : In dt dtypes -> (0 < dsize dt)%nat.
Proof. intros H. unfold dtypes in H. repeat (destruct H as [<-|H]; [cbn; lia|]). destruct H. Qed.
Lemma dtype_parse dt : In dt dtypes -> dparse (dstr dt) = Ok dt.
Proof. intros H. unfold dtypes in H. repeat (destruct H as [<-|H]; [vm_compute; reflexivity|]). destruct H. Qed.
Lemma dtype_field dt : In dt dtypes -> reads_back Utf8 Utf8 (FStr 3) (VStr (dstr dt)) (VStr (dstr dt)).
Proof.
  intros H. unfold dtypes in H.
  repeat (destruct H as [<-|H]; [apply rb_lit; [left; auto|..]; vm_compute; try reflexivity; lia|]). destruct H.
Qed.
Lemma name_field s : plain_name s -> reads_back Utf8 Utf8 (FStr (Z.to_nat (zlen s))) (VStr s) (VStr s).
Proof.
  intros (Ha & _ & Hb). constructor; [left; auto|]. split; [|exact Hb]. exists s. split; [apply utf8_ascii, Ha|].
  unfold zlen. rewrite Nat2Z.id. lia.
Qed.

(** ** The two headers *)
Lemma layer_head name w h ch dt size : plain_name name -> 0 <= w < 2 ^ 32 -> 0 <= h < 2 ^ 32 -> 0 <= ch < 256 ->
  In dt dtypes -> 0 <= size < 2 ^ 32 ->
  storable Utf8 Utf8 (layer_header name w h ch dt size) [] layer_layout (layer_header name w h ch dt size)
    (2 + (Z.to_nat (zlen name) + (4 + (4 + (1 + (3 + (4 + 0))))))).
Proof.
  intros Hn Hw Hh Hc Hd Hs. pose proof Hn as (Ha & Hl & Hb).
  assert (HI : forall z, 0 <= z < 2 ^ 32 -> reads_back Utf8 Utf8 fmt_I (VInt z) (VInt z)).
  { intros z Hz. apply rb_int; [lia|]. cbn [int_fits]. change (8 * Z.of_nat 4) with 32. lia. }
  unfold layer_layout, E.
  eapply (st_fixed _ _ _ "name_length"%string fmt_H (VInt (zlen name)) (VInt (zlen name))); [reflexivity|apply rb_int; [lia|]|].
  { cbn [int_fits]. change (2 ^ (8 * Z.of_nat 2)) with 65536. unfold zlen in *. lia. }
  eapply (st_prev _ _ _ "name"%string "name_length"%string (zlen name) (VStr name) (VStr name));
    [reflexivity|reflexivity|unfold zlen; lia|reflexivity|apply name_field, Hn|].
  eapply (st_fixed _ _ _ "width"%string fmt_I (VInt w) (VInt w)); [reflexivity|apply HI, Hw|].
  eapply (st_fixed _ _ _ "height"%string fmt_I (VInt h) (VInt h)); [reflexivity|apply HI, Hh|].
  eapply (st_fixed _ _ _ "channels"%string fmt_B (VInt ch) (VInt ch)); [reflexivity|apply rb_int; [lia|]|].
  { cbn [int_fits]. change (2 ^ (8 * Z.of_nat 1)) with 256. lia. }
  eapply (st_fixed _ _ _ "datatype"%string (FStr 3) (VStr (dstr dt)) (VStr (dstr dt))); [reflexivity|apply dtype_field, Hd|].
  eapply (st_fixed _ _ _ "size"%string fmt_I (VInt size) (VInt size)); [reflexivity|apply HI, Hs|].
  apply st_nil.
Qed.

(** the header as it is read *)
Definition header_read (s : raw) (nl nm : Z) (comp : pystr) (dt : dtype) : dict :=
  [("version", VStr (str "1.0")); ("step_x", VFloat (rstep_x s)); ("step_y", VFloat (rstep_y s)); ("scaled", VBool (is_int dt));
   ("min_value", VFloat (if is_int dt then amin s else f64_of_Z 0)); ("max_value", VFloat (if is_int dt then amax s else f64_of_Z 0));
   ("num_layers", VInt nl); ("num_metadata", VInt nm); ("compression_algorithm", VStr comp)]%string.
Lemma main_head s nl nm comp dt : known_compression comp -> 0 <= nl < 65536 -> 0 <= nm < 65536 ->
  storable Utf8 Utf8 (sflz_header s nl nm comp dt) [] sflz_layout (header_read s nl nm comp dt)
    (10 + (8 + (8 + (1 + (8 + (8 + (2 + (2 + (1 + 0))))))))).
Proof.
  intros Hc Hl Hm.
  assert (HH : forall z, 0 <= z < 65536 -> reads_back Utf8 Utf8 fmt_H (VInt z) (VInt z)).
  { intros z Hz. apply rb_int; [lia|]. cbn [int_fits]. change (2 ^ (8 * Z.of_nat 2)) with 65536. lia. }
  assert (HM : forall x, reads_back Utf8 Utf8 FF64 (if is_int dt then VFloat x else VInt 0) (VFloat (if is_int dt then x else f64_of_Z 0))).
  { intros x. destruct (is_int dt); [apply rb_f64|apply rb_f64_int; vm_compute; reflexivity]. }
  unfold sflz_layout, E.
  eapply (st_fixed _ _ _ "version"%string (FStr 10) _ (VStr (str "1.0"))); [reflexivity| |].
  { change (ljust 10 (str "1.0")) with (str "1.0" ++ repeat 32 7). eapply rb_str_trailing; [left; auto|vm_compute; reflexivity|cbn; lia| |].
    - apply Forall_repeat. left. reflexivity.
    - apply last_ok. vm_compute. reflexivity. }
  eapply (st_fixed _ _ _ "step_x"%string FF64 _ (VFloat (rstep_x s))); [reflexivity|apply rb_f64|].
  eapply (st_fixed _ _ _ "step_y"%string FF64 _ (VFloat (rstep_y s))); [reflexivity|apply rb_f64|].
  eapply (st_fixed _ _ _ "scaled"%string FBool _ (VBool (is_int dt))); [reflexivity|apply rb_bool|].
  eapply (st_fixed _ _ _ "min_value"%string FF64); [reflexivity|apply HM|].
  eapply (st_fixed _ _ _ "max_value"%string FF64); [reflexivity|apply HM|].
  eapply (st_fixed _ _ _ "num_layers"%string fmt_H); [reflexivity|apply HH, Hl|].
  eapply (st_fixed _ _ _ "num_metadata"%string fmt_H); [reflexivity|apply HH, Hm|].
  destruct Hc as [->|[->| ->]];
    (eapply (st_conv _ _ _ "compression_algorithm"%string false 1); [reflexivity|vm_compute; reflexivity|lia|cbn; lia|vm_compute; reflexivity|apply st_nil]).
Qed.

(** ** Cut headers: a layout without reserved bytes cannot be read from a proper prefix *)
Lemma fread_cut n pre b : (length b < n)%nat -> fread n (at_ pre b) = (b, at_ (pre ++ b) []).
Proof.
  intros H. unfold fread, at_. cbn [contents pos]. rewrite skipn_app, skipn_all, Nat.sub_diag. cbn [app skipn].
  rewrite firstn_all2 by lia. rewrite app_nil_r, app_length. reflexivity.
Qed.
Lemma read_value_cut en f pre b : (length b < calcsize f)%nat -> read_value en f (at_ pre b) = Err StructError.
Proof.
  intros H. unfold read_value. rewrite fread_cut by exact H. unfold unpack.
  replace (Nat.eqb (length b) (calcsize f)) with false by (symmetry; apply Nat.eqb_neq; lia). reflexivity.
Qed.
Definition no_reserved (e : entry) : Prop := match e with Reserved _ => False | _ => True end.
Lemma layout_cut w r d acc l fin n : storable w r d acc l fin n -> Forall no_reserved l ->
  forall b k pre, write_layout w d l = Ok b -> (k < length b)%nat -> exists e, read_layout_from r l acc (at_ pre (firstn k b)) = Err e.
Proof.
  induction 1 as [acc|m acc l fin n Hst IH|name f v v' acc l fin n Hv Hrb Hst IH
                 |name p z v v' acc l fin n Hp Hacc Hz Hv Hrb Hst IH
                 |name s m rd wr v x v' acc l fin n Hv Hwr Hn Hx Hrd Hst IH]; intros NR b k pre HW Hk.
  - cbn in HW. injection HW as <-. cbn in Hk. lia.
  - apply Forall_inv in NR. destruct NR.
  - apply Forall_inv_tail in NR. destruct (field_roundtrip w r f v v' Hrb) as (bf & F1 & F2 & F3).
    cbn [write_layout write_entry rbind] in HW. unfold dkey in HW. rewrite Hv in HW. cbn [rbind] in HW.
    unfold wfield in F1. rewrite F1 in HW. cbn [rbind] in HW. apply rmap_ok in HW as (b' & W' & ->).
    rewrite app_length in Hk. cbn [read_layout_from read_entry rbind].
    destruct (Nat.lt_ge_cases k (length bf)) as [C|C].
    + rewrite firstn_app. replace (k - length bf)%nat with 0%nat by lia. rewrite firstn_O, app_nil_r.
      rewrite read_value_cut; [eexists; reflexivity|]. rewrite firstn_length. lia.
    + rewrite firstn_app, firstn_all2 by lia. rewrite F3. cbn [rmap rbind].
      apply IH; auto. lia.
  - apply Forall_inv_tail in NR. destruct (field_roundtrip w r _ v v' Hrb) as (bf & F1 & F2 & F3).
    assert (G : forall dd, dget dd p = Some (VInt z) -> get_format dd p = Ok (FStr (Z.to_nat z))).
    { intros dd Hd. unfold get_format, dkey. rewrite Hd. cbn [rbind]. destruct (Z.ltb_spec z 0); [lia|reflexivity]. }
    cbn [write_layout write_entry rbind] in HW. rewrite (G d Hp) in HW. cbn [rbind] in HW.
    unfold dkey in HW. rewrite Hv in HW. cbn [rbind] in HW.
    unfold wfield in F1. rewrite F1 in HW. cbn [rbind] in HW. apply rmap_ok in HW as (b' & W' & ->).
    rewrite app_length in Hk. cbn [read_layout_from read_entry rbind]. rewrite (G acc Hacc). cbn [rbind].
    destruct (Nat.lt_ge_cases k (length bf)) as [C|C].
    + rewrite firstn_app. replace (k - length bf)%nat with 0%nat by lia. rewrite firstn_O, app_nil_r.
      rewrite read_value_cut; [eexists; reflexivity|]. rewrite firstn_length. lia.
    + rewrite firstn_app, firstn_all2 by lia. rewrite F3. cbn [rmap rbind].
      apply IH; auto. lia.
  - apply Forall_inv_tail in NR. destruct (pack_int s m x Hn Hx) as (bf & F1 & F2 & F3).
    cbn [write_layout write_entry rbind] in HW. unfold dkey in HW. rewrite Hv in HW. cbn [rbind] in HW. rewrite Hwr in HW.
    cbn [rbind] in HW. rewrite F1 in HW. cbn [rbind] in HW. apply rmap_ok in HW as (b' & W' & ->).
    rewrite app_length in Hk. cbn [read_layout_from read_entry rbind calcsize].
    destruct (Nat.lt_ge_cases k (length bf)) as [C|C].
    + rewrite firstn_app. replace (k - length bf)%nat with 0%nat by lia. rewrite firstn_O, app_nil_r.
      rewrite fread_cut by (rewrite firstn_length; lia). unfold unpack. cbn [calcsize].
      replace (Nat.eqb (length (firstn k bf)) m) with false; [eexists; reflexivity|].
      symmetry. apply Nat.eqb_neq. rewrite firstn_length. lia.
    + rewrite firstn_app, firstn_all2 by lia. pose proof (fread_at pre bf (firstn (k - length bf) b')) as FA. rewrite F2 in FA. rewrite F2, FA, F3. cbn [rbind].
      rewrite Hrd. cbn [rmap rbind]. apply IH; auto. lia.
Qed.
Lemma layer_layout_nr : Forall no_reserved layer_layout.
Proof. unfold layer_layout, E. repeat constructor. Qed.
Lemma sflz_layout_nr : Forall no_reserved sflz_layout.
Proof. unfold sflz_layout, E. repeat constructor. Qed.

(** ** Compression *)
Section Codecs.
Context (c : codecs) (comp : pystr) (Hcomp : known_compression comp).
Lemma cround : lossless (c_zlib c) -> lossless (c_lzma c) -> forall b, cdecompress c comp (ccompress c comp b) = Ok b.
Proof.
  intros Hz Hl b. unfold cdecompress, ccompress. destruct (zs_eqb comp (str "zlib")); [apply Hz|].
  destruct (zs_eqb comp (str "lzma")); [apply Hl|reflexivity].
Qed.
(** reading a cut stream gives an error or, without compression, fewer bytes *)
Lemma ccut : rejects_cut (c_zlib c) -> rejects_cut (c_lzma c) -> forall b k, (k < length (ccompress c comp b))%nat ->
  (exists e, cdecompress c comp (firstn k (ccompress c comp b)) = Err e) \/
  (exists b', cdecompress c comp (firstn k (ccompress c comp b)) = Ok b' /\ (length b' < length b)%nat).
Proof.
  intros Hz Hl b k Hk. unfold cdecompress, ccompress in *. destruct (zs_eqb comp (str "zlib")); [left; apply Hz, Hk|].
  destruct (zs_eqb comp (str "lzma")); [left; apply Hl, Hk|]. right. eexists. split; [reflexivity|]. rewrite firstn_length. lia.
Qed.
End Codecs.

(** ** One layer: header and data *)
Lemma frombuffer_ok n b k : (0 < n)%nat -> length b = (k * n)%nat -> exists l, frombuffer n b = Ok l /\ length l = k.
Proof.
  intros Hn Hb. unfold frombuffer. rewrite Hb, Nat.mod_mul by lia. cbn [Nat.eqb]. eexists. split; [reflexivity|].
  rewrite Nat.div_mul by lia. generalize b. clear Hb b. induction k as [|k IH]; intros b; cbn [chunks length]; [reflexivity|]. f_equal. apply IH.
Qed.
Section Layer.
Context (c : codecs) (comp : pystr) (Hz : lossless (c_zlib c)) (Hl : lossless (c_lzma c)).
(** a header that announces an array of shape [sh], followed by its compressed bytes *)
Lemma read_layer_ok name h w ch dt b sh : plain_name name -> Z.of_nat h < 2 ^ 32 -> Z.of_nat w < 2 ^ 32 -> 0 <= ch < 256 ->
  In dt dtypes -> zlen (ccompress c comp b) < 2 ^ 32 ->
  sh = (if 1 <? ch then [h; w; Z.to_nat ch] else [h; w]) -> length b = (fold_right Nat.mul 1 sh * dsize dt)%nat ->
  exists head, write_layout Utf8 (layer_header name (Z.of_nat w) (Z.of_nat h) ch dt (zlen (ccompress c comp b))) layer_layout = Ok head /\
    (length head = 2 + (length name + 16))%nat /\
    (forall pre rest, read_layer c comp (at_ pre (head ++ ccompress c comp b ++ rest)) =
      Ok ({| lname := name; lshape := sh; ldt := dt; lbytes := b |}, at_ (pre ++ head ++ ccompress c comp b) rest)) /\
    (rejects_cut (c_zlib c) -> rejects_cut (c_lzma c) -> forall pre k, (k < length (head ++ ccompress c comp b))%nat ->
      exists e, read_layer c comp (at_ pre (firstn k (head ++ ccompress c comp b))) = Err e).
Proof.
  intros Hn Hh Hw Hc Hd Hs Esh Eb. set (data := ccompress c comp b) in *.
  assert (ST := layer_head name (Z.of_nat w) (Z.of_nat h) ch dt (zlen data) Hn ltac:(lia) ltac:(lia) Hc Hd ltac:(unfold zlen in *; lia)).
  destruct (layout_roundtrip _ _ _ _ _ _ _ ST) as (head & W & WL & RD). exists head. split; [exact W|].
  split. { rewrite WL. unfold zlen. rewrite Nat2Z.id. lia. }
  assert (COMMON : forall pre rest data', (rest = [] /\ (length data' <= length data)%nat) \/ data' = data ->
     read_layer c comp (at_ pre (head ++ data' ++ rest)) =
     rbind (cdecompress c comp data') (fun b' => rbind (frombuffer (dsize dt) b') (fun items =>
       if Nat.eqb (length items) (fold_right Nat.mul 1%nat sh)
       then Ok ({| lname := name; lshape := sh; ldt := dt; lbytes := b' |}, at_ (pre ++ head ++ data') rest) else Err ValueError))).
  { intros pre rest data' HD. unfold read_layer, read_layout. rewrite RD. cbn [rbind].
    assert (E1 : hint (layer_header name (Z.of_nat w) (Z.of_nat h) ch dt (zlen data)) "size" = Ok (zlen data)) by reflexivity.
    rewrite E1. cbn [rbind]. unfold zlen at 1. rewrite Nat2Z.id.
    assert (E2 : fread (length data) (at_ (pre ++ head) (data' ++ rest)) = (data', at_ ((pre ++ head) ++ data') rest)).
    { destruct HD as [[-> HD]| ->]; [|apply fread_at]. rewrite app_nil_r. destruct (Nat.eq_dec (length data') (length data)) as [E|E].
      - rewrite <- E. pose proof (fread_at (pre ++ head) data' []) as F. rewrite app_nil_r in F. exact F.
      - apply fread_cut. lia. }
    rewrite E2. destruct (cdecompress c comp data') as [b'|e]; [|reflexivity]. cbn [rbind].
    assert (E3 : hstr (layer_header name (Z.of_nat w) (Z.of_nat h) ch dt (zlen data)) "datatype" = Ok (dstr dt)) by reflexivity.
    rewrite E3. cbn [rbind]. rewrite dtype_parse by exact Hd. cbn [rbind].
    destruct (frombuffer (dsize dt) b') as [items|e]; [|reflexivity]. cbn [rbind].
    assert (E4 : hint (layer_header name (Z.of_nat w) (Z.of_nat h) ch dt (zlen data)) "channels" = Ok ch) by reflexivity.
    assert (E5 : hint (layer_header name (Z.of_nat w) (Z.of_nat h) ch dt (zlen data)) "height" = Ok (Z.of_nat h)) by reflexivity.
    assert (E6 : hint (layer_header name (Z.of_nat w) (Z.of_nat h) ch dt (zlen data)) "width" = Ok (Z.of_nat w)) by reflexivity.
    assert (E7 : hstr (layer_header name (Z.of_nat w) (Z.of_nat h) ch dt (zlen data)) "name" = Ok name) by reflexivity.
    rewrite E4. cbn [rbind]. rewrite E5. cbn [rbind]. rewrite E6. cbn [rbind]. rewrite E7. cbn [rbind].
    rewrite !Nat2Z.id, <- Esh, <- app_assoc. reflexivity. }
  pose proof (dtype_size dt Hd) as Hds.
  split.
  - intros pre rest. rewrite COMMON by (right; reflexivity). unfold data at 1. rewrite cround by assumption. cbn [rbind].
    destruct (frombuffer_ok (dsize dt) b _ Hds Eb) as (items & E1 & E2). rewrite E1. cbn [rbind]. rewrite E2, Nat.eqb_refl. reflexivity.
  - intros Rz Rl pre k Hk. rewrite app_length in Hk. destruct (Nat.lt_ge_cases k (length head)) as [C|C].
    + rewrite firstn_app. replace (k - length head)%nat with 0%nat by lia. rewrite firstn_O, app_nil_r.
      destruct (layout_cut _ _ _ _ _ _ _ ST layer_layout_nr head k pre W C) as (e & He).
      exists e. unfold read_layer, read_layout. rewrite He. reflexivity.
    + rewrite firstn_app, firstn_all2 by lia. rewrite <- (app_nil_r (firstn (k - length head) data)).
      rewrite COMMON by (left; split; [reflexivity|rewrite firstn_length; lia]).
      destruct (ccut c comp Rz Rl b (k - length head)%nat) as [[e He]|(b' & He & Hb')].
      { fold data. lia. }
      * exists e. fold data in He. rewrite He. reflexivity.
      * fold data in He. rewrite He. cbn [rbind]. destruct (frombuffer (dsize dt) b') as [items|e] eqn:FB; [|eexists; reflexivity].
        cbn [rbind]. apply frombuffer_length in FB; [|exact Hds].
        destruct (Nat.eqb_spec (length items) (fold_right Nat.mul 1%nat sh)) as [E|E]; [|eexists; reflexivity].
        exfalso. rewrite E in FB. lia.
Qed.

Lemma image_ok l : image_layer c comp l -> exists b, write_layer c comp l = Ok b /\ (0 < length b)%nat /\
  (forall pre rest, read_layer c comp (at_ pre (b ++ rest)) = Ok (drop_single l, at_ (pre ++ b) rest)) /\
  (rejects_cut (c_zlib c) -> rejects_cut (c_lzma c) -> forall pre k, (k < length b)%nat ->
      exists e, read_layer c comp (at_ pre (firstn k b)) = Err e).
Proof.
  intros [H1 H2 H3 H4 H5]. destruct l as [name sh dt b]. cbn [lname lshape ldt lbytes] in *. unfold write_layer. cbn [lname lshape ldt lbytes].
  destruct sh as [|h [|w rest]]; [destruct H3|destruct H3|].
  assert (G : exists ch, 0 <= ch < 256 /\ (match rest with [] => 1 | _ => Z.of_nat (last rest 0%nat) end) = ch /\
     lshape (drop_single {| lname := name; lshape := h :: w :: rest; ldt := dt; lbytes := b |}) = (if 1 <? ch then [h; w; Z.to_nat ch] else [h; w]) /\
     Z.of_nat h < 2 ^ 32 /\ Z.of_nat w < 2 ^ 32 /\
     fold_right Nat.mul 1%nat (lshape (drop_single {| lname := name; lshape := h :: w :: rest; ldt := dt; lbytes := b |})) = fold_right Nat.mul 1%nat (h :: w :: rest)).
  { cbn [image_shape] in H3. cbn [drop_single lshape]. destruct rest as [|ch [|]]; [| |destruct H3].
    - exists 1. repeat split; try lia; try reflexivity; apply H3.
    - exists (Z.of_nat ch). cbn [last]. destruct H3 as (A & B & C). destruct (Z.ltb_spec 1 (Z.of_nat ch)) as [L|L].
      + rewrite Nat2Z.id. destruct ch as [|[|ch]]; [lia|lia|]. repeat split; try lia; try reflexivity.
      + replace ch with 1%nat by lia. repeat split; try lia; try reflexivity. }
  destruct G as (ch & G1 & G2 & G3 & G4 & G5 & G6). rewrite G2. rewrite <- G6 in H4.
  destruct (read_layer_ok name h w ch dt b _ H1 G4 G5 G1 H2 H5 G3 H4) as (head & W & WL & R1 & R2).
  cbv zeta. rewrite W. cbn [rmap]. eexists. split; [reflexivity|]. split; [rewrite app_length; lia|]. split; [|exact R2].
  intros pre rest'. rewrite <- app_assoc. apply R1.
Qed.

(** ** All image layers *)
Lemma lput_new l x : ~ In (lname x) (map lname l) -> lput l x = l ++ [x].
Proof.
  induction l as [|y l IH]; intros H; cbn [lput app]; [reflexivity|]. cbn [map In] in H.
  destruct (zs_eqb (lname x) (lname y)) eqn:E.
  - apply zs_eqb_eq in E. exfalso. apply H. left. symmetry. exact E.
  - f_equal. apply IH. intros H'. apply H. right. exact H'.
Qed.
Lemma layers_ok ls : Forall (image_layer c comp) ls -> exists b, write_layers c comp ls = Ok b /\
  (forall acc pre rest, NoDup (map lname (acc ++ ls)) -> read_layers c comp (length ls) acc (at_ pre (b ++ rest)) = Ok (acc ++ map drop_single ls)) /\
  (ls <> [] -> (0 < length b)%nat) /\
  (rejects_cut (c_zlib c) -> rejects_cut (c_lzma c) -> forall acc pre k, (k < length b)%nat ->
      exists e, read_layers c comp (length ls) acc (at_ pre (firstn k b)) = Err e).
Proof.
  induction 1 as [|l ls Hl' Hls IH].
  - exists []. split; [reflexivity|]. split; [|split].
    + intros acc pre rest _. cbn [read_layers length]. rewrite app_nil_r. reflexivity.
    + congruence.
    + intros _ _ acc pre k Hk. cbn in Hk. lia.
  - destruct IH as (b & W & R1 & _ & R2). destruct (image_ok l Hl') as (b0 & W0 & L0 & R0 & C0).
    exists (b0 ++ b). cbn [write_layers]. rewrite W0. cbn [rbind]. rewrite W. split; [reflexivity|]. split; [|split].
    + intros acc pre rest ND. cbn [length read_layers]. rewrite <- app_assoc, R0. cbn [rbind].
      rewrite lput_new.
      * rewrite R1; rewrite <- app_assoc; [reflexivity|].
        rewrite !map_app in *. cbn [map app] in *. exact ND.
      * rewrite map_app in ND. cbn [map] in ND. cbn [drop_single lname]. apply NoDup_remove_2 in ND. intros H. apply ND. apply in_or_app. left. exact H.
    + intros _. rewrite app_length. lia.
    + intros Rz Rl acc pre k Hk. rewrite app_length in Hk. cbn [length read_layers].
      destruct (Nat.lt_ge_cases k (length b0)) as [C|C].
      * rewrite firstn_app. replace (k - length b0)%nat with 0%nat by lia. rewrite firstn_O, app_nil_r.
        destruct (C0 Rz Rl pre k C) as (e & He). rewrite He. exists e. reflexivity.
      * rewrite firstn_app, firstn_all2 by lia. rewrite R0. cbn [rbind]. apply R2; auto. lia.
Qed.
End Layer.
