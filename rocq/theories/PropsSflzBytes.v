(** Property C112: the bytes of a file in the native format (.sflz). *)
From Coq Require Import String Ascii ZArith Lia Bool Reals.
From Coq Require Import List.
From Flocq Require Import IEEE754.BinarySingleNaN IEEE754.Binary IEEE754.Bits.
From Verif Require Import Base ModelBytes SpecBytes ProofBytes PropsLayout ModelUnits ModelSur ModelFormats PropsTmd ModelSflz ProofSflz PropsSflz.
Import ListNotations.
Local Open Scope Z_scope.

(** *** The format, byte for byte *)
(** an unsigned number of n bytes, lowest first *)
Definition number (n : nat) (v : Z) : bytes := map (fun i => (v / 256 ^ Z.of_nat i) mod 256) (seq 0 n).
(** a double, a single *)
Definition double (x : f64) : bytes := number 8 (bits_of_b64 x).
Definition single (x : f64) : bytes := number 4 (bits_of_b32 (f32_of_f64 x)).
(** the name of a type of numbers, three characters *)
Definition type_code (dt : dtype) : bytes :=
  match dt with
  | U 1 => str "|u1" | U 2 => str "<u2" | U 4 => str "<u4" | U 8 => str "<u8"
  | I 1 => str "|i1" | I 2 => str "<i2" | I 4 => str "<i4" | I 8 => str "<i8"
  | F4 => str "<f4" | F8 => str "<f8" | _ => []
  end.
(** the contents of a block, packed as the header says *)
Inductive packed (c : codecs) : pystr -> Z -> bytes -> bytes -> Prop :=
| Plain b : packed c (str "none") 0 b b
| Zlib b : packed c (str "zlib") 1 b (compress (c_zlib c) b)
| Lzma b : packed c (str "lzma") 2 b (compress (c_lzma c) b).
(** one block: length of the name, name, width, height, channels, type, length of the contents, contents *)
Definition block (name : bytes) (w h channels : Z) (dt : dtype) (p : bytes) : bytes :=
  number 2 (Z.of_nat (length name)) ++ name ++ number 4 w ++ number 4 h ++ [channels] ++ type_code dt ++
  number 4 (Z.of_nat (length p)) ++ p.
(** the head of the file *)
Definition head (step_x step_y : f64) (scaled : bool) (lo hi : f64) (blocks n_meta codec : Z) : bytes :=
  str "SFLZ" ++ str "1.0       " ++ double step_x ++ double step_y ++ [if scaled then 1 else 0] ++ double lo ++ double hi ++
  number 2 blocks ++ number 2 n_meta ++ [codec].
(** the block of an image: its contents as they are; the last axis behind the second is the channels *)
Inductive image_block (c : codecs) (comp : pystr) : layer -> bytes -> Prop :=
| Image l codec h w rest p : lshape l = h :: w :: rest -> packed c comp codec (lbytes l) p ->
    image_block c comp l (block (lname l) (Z.of_nat w) (Z.of_nat h) (match rest with [] => 1 | _ => Z.of_nat (last rest 0%nat) end) (ldt l) p).
(** the stored heights: doubles or singles as they are; integers scaled to the full range *)
Definition stored (cast : dtype -> f64 -> Z) (s : raw) (dt : dtype) : bytes :=
  flat_map (fun x => match dt with
                     | F8 => double x
                     | F4 => single x
                     | U n | I n => number n (cast dt (scale_height dt (amin s) (amax s) x))
                     end) (concat (rdata s)).

(** *** The writer produces it *)
Lemma number_le n : forall v, le n v = number n v.
Proof.
  induction n as [|n IH]; intros v; [reflexivity|]. cbn [le]. rewrite IH. unfold number. cbn [seq map].
  change (256 ^ Z.of_nat 0) with 1. rewrite Z.div_1_r. f_equal. rewrite <- seq_shift, map_map. apply map_ext. intros i.
  rewrite Nat2Z.inj_succ, Z.pow_succ_r by lia. rewrite Z.div_div by lia. reflexivity.
Qed.
Lemma number_mod n v : number n (v mod 2 ^ (8 * Z.of_nat n)) = number n v.
Proof.
  unfold number. apply map_ext_in. intros i Hi. apply in_seq in Hi.
  replace (2 ^ (8 * Z.of_nat n)) with (256 ^ Z.of_nat i * 256 ^ Z.of_nat (n - i)).
  2:{ rewrite <- Z.pow_add_r by lia. rewrite Z.pow_mul_r by lia. f_equal. lia. }
  assert (P : 0 < 256 ^ Z.of_nat i) by lia. assert (P' : 0 < 256 ^ Z.of_nat (n - i)) by lia.
  rewrite Z.rem_mul_r by lia. rewrite Z.add_comm, (Z.mul_comm (256 ^ Z.of_nat i)), Z.div_add_l by lia.
  rewrite (Z.div_small (v mod 256 ^ Z.of_nat i)) by (apply Z.mod_pos_bound; lia). rewrite Z.add_0_r.
  replace (256 ^ Z.of_nat (n - i)) with (256 * 256 ^ Z.of_nat (n - i - 1)).
  2:{ rewrite <- Z.pow_succ_r by lia. f_equal. lia. }
  assert (P2 : 0 < 256 ^ Z.of_nat (n - i - 1)) by lia.
  rewrite Z.rem_mul_r by lia. rewrite Z.mul_comm, Z.mod_add by lia. apply Z.mod_mod. lia.
Qed.
Lemma okinj {A} (x y : A) : Ok x = Ok y -> x = y.
Proof. congruence. Qed.
Lemma we_double d name x rest b : dget d name = Some (VFloat x) ->
  write_layout Utf8 d (E name FF64 :: rest) = Ok b -> exists b', write_layout Utf8 d rest = Ok b' /\ b = double x ++ b'.
Proof.
  intros G H. unfold E in H. cbn [write_layout write_entry] in H. unfold dkey in H. rewrite G in H.
  cbn [rbind pack float_of_val] in H. destruct (write_layout Utf8 d rest) as [b'|e]; [|discriminate]. cbn [rmap] in H.
  exists b'. split; [reflexivity|]. apply okinj in H. subst b. unfold double. now rewrite number_le.
Qed.
Lemma we_int d name n z rest b : dget d name = Some (VInt z) ->
  write_layout Utf8 d (E name (FInt false n) :: rest) = Ok b ->
  0 <= z < 2 ^ (8 * Z.of_nat n) /\ exists b', write_layout Utf8 d rest = Ok b' /\ b = number n z ++ b'.
Proof.
  intros G H. unfold E in H. cbn [write_layout write_entry] in H. unfold dkey in H. rewrite G in H.
  cbn [rbind pack int_of_val] in H. unfold in_range in H.
  destruct (Z.leb_spec 0 z); [|discriminate]. destruct (Z.ltb_spec z (2 ^ (8 * Z.of_nat n))); [|discriminate]. cbn [andb rbind] in H.
  split; [lia|]. destruct (write_layout Utf8 d rest) as [b'|e]; [|discriminate]. cbn [rmap] in H.
  exists b'. split; [reflexivity|]. apply okinj in H. subst b. now rewrite number_le, number_mod.
Qed.
Lemma text_pack n s : ascii s -> length s = n -> rbind (rmap VBytes (encode Utf8 (ljust n s))) (fun v' => pack (FStr n) v') = Ok s.
Proof.
  intros A L. unfold ljust. rewrite L, Nat.sub_diag. cbn [repeat]. rewrite app_nil_r. cbn [encode].
  rewrite (utf8_ascii _ A). cbn [rmap rbind pack]. rewrite firstn_all2 by lia. rewrite L, Nat.sub_diag. cbn [repeat]. now rewrite app_nil_r.
Qed.
Lemma we_text d name n s rest b : dget d name = Some (VStr s) -> ascii s -> length s = n ->
  write_layout Utf8 d (E name (FStr n) :: rest) = Ok b -> exists b', write_layout Utf8 d rest = Ok b' /\ b = s ++ b'.
Proof.
  intros G A L H. unfold E in H. cbn [write_layout write_entry] in H. unfold dkey in H. rewrite G in H. cbn [rbind calcsize] in H.
  rewrite (text_pack n s A L) in H. cbn [rbind] in H. destruct (write_layout Utf8 d rest) as [b'|e]; [|discriminate]. cbn [rmap] in H.
  exists b'. split; [reflexivity|]. apply okinj in H. now subst b.
Qed.
Lemma we_name d name prev s rest b : dget d prev = Some (VInt (zlen s)) -> dget d name = Some (VStr s) -> ascii s ->
  write_layout Utf8 d (Entry name (FromPrev prev) :: rest) = Ok b -> exists b', write_layout Utf8 d rest = Ok b' /\ b = s ++ b'.
Proof.
  intros P G A H. cbn [write_layout write_entry] in H. unfold get_format, dkey in H. rewrite P, G in H. cbn [rbind calcsize] in H.
  destruct (Z.ltb_spec (zlen s) 0) as [X|_]; [unfold zlen in X; lia|]. cbn [rbind calcsize] in H.
  rewrite (text_pack (Z.to_nat (zlen s)) s A) in H by (unfold zlen; lia). cbn [rbind] in H.
  destruct (write_layout Utf8 d rest) as [b'|e]; [|discriminate]. cbn [rmap] in H.
  exists b'. split; [reflexivity|]. apply okinj in H. now subst b.
Qed.
Lemma we_flag d name (f : bool) rest b : dget d name = Some (VBool f) ->
  write_layout Utf8 d (E name FBool :: rest) = Ok b -> exists b', write_layout Utf8 d rest = Ok b' /\ b = (if f then 1 else 0) :: b'.
Proof.
  intros G H. unfold E in H. cbn [write_layout write_entry] in H. unfold dkey in H. rewrite G in H. cbn [rbind pack truth] in H.
  destruct (write_layout Utf8 d rest) as [b'|e]; [|discriminate]. cbn [rmap] in H.
  exists b'. split; [reflexivity|]. apply okinj in H. subst b. now destruct f.
Qed.
Lemma we_zero d name rest b : dget d name = Some (VInt 0) ->
  write_layout Utf8 d (E name FF64 :: rest) = Ok b -> exists b', write_layout Utf8 d rest = Ok b' /\ b = double (f64_of_Z 0) ++ b'.
Proof.
  intros G H. unfold E in H. cbn [write_layout write_entry] in H. unfold dkey in H. rewrite G in H.
  replace (rbind (Ok (VInt 0)) (fun v => rbind (match v with VStr s => rmap VBytes (encode Utf8 (ljust (calcsize FF64) s)) | _ => Ok v end) (pack FF64)))
    with (@Ok bytes (le 8 (bits_of_b64 (f64_of_Z 0)))) in H by (vm_compute; reflexivity).
  cbn [rbind] in H.
  replace (rbind (match VInt 0 with VStr s => rmap VBytes (encode Utf8 (ljust (calcsize FF64) s)) | _ => Ok (VInt 0) end) (fun v' => pack FF64 v'))
    with (@Ok bytes (le 8 (bits_of_b64 (f64_of_Z 0)))) in H by (vm_compute; reflexivity).
  cbn [rbind] in H.
  destruct (write_layout Utf8 d rest) as [b'|e]; [|discriminate]. cbn [rmap] in H.
  exists b'. split; [reflexivity|]. apply okinj in H. subst b. unfold double. now rewrite number_le.
Qed.
Lemma we_codec c d name comp b : dget d name = Some (VStr comp) ->
  write_layout Utf8 d [Entry name (Convert fmt_B cread cwrite)] = Ok b ->
  exists codec, b = [codec] /\ forall p, packed c comp codec p (ccompress c comp p).
Proof.
  intros G H. cbn [write_layout write_entry] in H. unfold dkey in H. rewrite G in H. cbn [rbind cwrite] in H. unfold cnum in H.
  destruct (zs_eqb comp (str "none")) eqn:E0.
  { apply zs_eqb_eq in E0. subst comp. cbn in H. apply okinj in H. subst b. exists 0. split; [reflexivity|]. intros p. constructor. }
  destruct (zs_eqb comp (str "zlib")) eqn:E1.
  { apply zs_eqb_eq in E1. subst comp. cbn in H. apply okinj in H. subst b. exists 1. split; [reflexivity|]. intros p. constructor. }
  destruct (zs_eqb comp (str "lzma")) eqn:E2; [|discriminate].
  apply zs_eqb_eq in E2. subst comp. cbn in H. apply okinj in H. subst b. exists 2. split; [reflexivity|]. intros p. constructor.
Qed.
Lemma type_dstr dt : In dt dtypes -> type_code dt = dstr dt /\ length (dstr dt) = 3%nat /\ ascii (dstr dt).
Proof.
  intros H. unfold dtypes in H.
  repeat (destruct H as [<-|H]; [split; [vm_compute; reflexivity|split; [reflexivity|repeat (constructor; [cbn; lia|]); constructor]]|]). destruct H.
Qed.
Lemma block_bytes name w h ch dt p b : ascii name -> In dt dtypes -> 
  write_layout Utf8 (layer_header name w h ch dt (zlen p)) layer_layout = Ok b -> b ++ p = block name w h ch dt p.
Proof.
  intros A D H. destruct (type_dstr dt D) as (T1 & T2 & T3). unfold layer_layout, fmt_H, fmt_I, fmt_B in H. set (d := layer_header name w h ch dt (zlen p)) in *.
  apply (we_int d _ 2 (zlen name)) in H as (_ & b1 & H & ->); [|reflexivity].
  apply (we_name d "name"%string "name_length"%string name) in H as (b2 & H & ->); [|reflexivity|reflexivity|exact A].
  apply (we_int d _ 4 w) in H as (_ & b3 & H & ->); [|reflexivity].
  apply (we_int d _ 4 h) in H as (_ & b4 & H & ->); [|reflexivity].
  apply (we_int d _ 1 ch) in H as (Hc & b5 & H & ->); [|reflexivity].
  apply (we_text d _ 3 (dstr dt)) in H as (b6 & H & ->); [|reflexivity|exact T3|exact T2].
  apply (we_int d _ 4 (zlen p)) in H as (_ & b7 & H & ->); [|reflexivity].
  cbn [write_layout] in H. apply okinj in H. subst b7.
  replace (number 1 ch) with [ch].
  2:{ unfold number. cbn [seq map]. change (256 ^ Z.of_nat 0) with 1. rewrite Z.div_1_r, Z.mod_small; [reflexivity|exact Hc]. }
  unfold block. rewrite T1, app_nil_r, <- !app_assoc. reflexivity.
Qed.
Lemma stored_store cast s dt : In dt dtypes -> store cast dt s = stored cast s dt.
Proof.
  intros D. unfold store, stored. rewrite flat_map_concat_map. destruct dt as [n|n| |].
  - cbn [dsize]. unfold int_tobytes. rewrite map_map. apply f_equal, map_ext. intros x. now rewrite number_le, number_mod.
  - cbn [dsize]. unfold int_tobytes. rewrite map_map. apply f_equal, map_ext. intros x. now rewrite number_le, number_mod.
  - unfold f32_tobytes. rewrite map_map. apply f_equal, map_ext. intros x. unfold single. now rewrite number_le.
  - unfold f64_tobytes. apply f_equal, map_ext. intros x. unfold double. now rewrite number_le.
Qed.
Lemma Forall2_length' {A B} {R : A -> B -> Prop} {l m} : Forall2 R l m -> length m = length l.
Proof. induction 1; cbn; congruence. Qed.
Lemma layers_bytes c comp codec : (forall p, packed c comp codec p (ccompress c comp p)) ->
  forall l b, Forall (fun x => ascii (lname x) /\ In (ldt x) dtypes) l -> write_layers c comp l = Ok b ->
  exists bs, Forall2 (image_block c comp) l bs /\ b = concat bs.
Proof.
  intros PK l. induction l as [|x l IH]; intros b F H.
  - cbn in H. apply okinj in H. subst b. exists []. split; [constructor|reflexivity].
  - inversion F as [|? ? [A D] F']; subst. cbn [write_layers] in H. unfold write_layer in H.
    destruct (lshape x) as [|h [|w rest]] eqn:Sh; [discriminate|discriminate|].
    destruct (write_layout Utf8 _ layer_layout) as [hd|e] eqn:Eh; [|discriminate]. cbn [rmap rbind] in H.
    destruct (write_layers c comp l) as [b'|e] eqn:El; [|discriminate]. cbn [rmap] in H. apply okinj in H. subst b.
    destruct (IH b' F' eq_refl) as (bs & B1 & B2). rewrite (block_bytes _ _ _ _ _ _ _ A D Eh).
    eexists (_ :: bs). split; [constructor; [|exact B1]|cbn [concat]; rewrite B2; reflexivity].
    econstructor; [exact Sh|apply PK].
Qed.

(** ** C112.  Whatever is written is a file of this form: the head, the block of the heights, then one block for each image
    in their order (none, if images are not saved). *)
Theorem C112_written : forall c cast s layers n_meta comp save dt b,
  In dt dtypes -> Forall (fun x => ascii (lname x) /\ In (ldt x) dtypes) layers ->
  write_sflz c cast s layers n_meta comp save dt = Ok b ->
  exists codec p images,
    packed c comp codec (stored cast s dt) p /\
    Forall2 (image_block c comp) (if save then layers else []) images /\
    b = head (rstep_x s) (rstep_y s) (is_int dt) (if is_int dt then amin s else f64_of_Z 0) (if is_int dt then amax s else f64_of_Z 0)
          (1 + Z.of_nat (length images)) n_meta codec ++
        block (str "topography") (Z.of_nat (cols s)) (Z.of_nat (rows s)) 1 dt p ++ concat images.
Proof.
  intros c cast s layers n_meta comp save dt b D F H. unfold write_sflz in H.
  destruct (is_int dt && Nat.eqb (rows s * cols s) 0); [discriminate|].
  set (used := if save then layers else []) in *.
  destruct (write_layout Utf8 (sflz_header s (1 + zlen used) n_meta comp dt) sflz_layout) as [hd|e] eqn:Eh; [|discriminate].
  cbn [rbind] in H.
  destruct (write_layout Utf8 (layer_header (str "topography") (Z.of_nat (cols s)) (Z.of_nat (rows s)) 1 dt (zlen (ccompress c comp (store cast dt s)))) layer_layout)
    as [lh|e] eqn:El; [|discriminate]. cbn [rbind] in H.
  destruct (write_layers c comp used) as [rest|e] eqn:Er; [|discriminate]. cbn [rbind] in H. apply okinj in H. subst b.
  assert (TA : ascii (str "topography")) by (vm_compute; repeat (constructor; [split; discriminate || reflexivity|]); constructor).
  apply (block_bytes _ _ _ _ _ _ _ TA D) in El.
  set (d := sflz_header s (1 + zlen used) n_meta comp dt) in *.
  unfold sflz_layout, fmt_H in Eh.
  apply (we_text d _ 10 (str "1.0       ")) in Eh as (b1 & Eh & ->); [|reflexivity|vm_compute; repeat (constructor; [split; discriminate || reflexivity|]); constructor|reflexivity].
  apply (we_double d _ (rstep_x s)) in Eh as (b2 & Eh & ->); [|reflexivity].
  apply (we_double d _ (rstep_y s)) in Eh as (b3 & Eh & ->); [|reflexivity].
  apply (we_flag d _ (is_int dt)) in Eh as (b4 & Eh & ->); [|reflexivity].
  assert (MM : forall name x rest b, dget d name = Some (if is_int dt then VFloat x else VInt 0) -> write_layout Utf8 d (E name FF64 :: rest) = Ok b ->
    exists b', write_layout Utf8 d rest = Ok b' /\ b = double (if is_int dt then x else f64_of_Z 0) ++ b').
  { intros name x r b G H. destruct (is_int dt); [apply (we_double d name x r b G H)|apply (we_zero d name r b G H)]. }
  apply (MM _ (amin s)) in Eh as (b5 & Eh & ->); [|reflexivity].
  apply (MM _ (amax s)) in Eh as (b6 & Eh & ->); [|reflexivity].
  apply (we_int d _ 2 (1 + zlen used)) in Eh as (_ & b7 & Eh & ->); [|reflexivity].
  apply (we_int d _ 2 n_meta) in Eh as (_ & b8 & Eh & ->); [|reflexivity].
  apply (we_codec c d _ comp) in Eh as (codec & -> & PK); [|reflexivity].
  assert (FU : Forall (fun x => ascii (lname x) /\ In (ldt x) dtypes) used) by (unfold used; destruct save; [exact F|constructor]).
  destruct (layers_bytes c comp codec PK used rest FU Er) as (images & I1 & I2).
  exists codec, (ccompress c comp (store cast dt s)), images.
  split; [rewrite <- (stored_store cast s dt D); apply PK|]. split; [exact I1|].
  assert (LI : Z.of_nat (length images) = zlen used) by (unfold zlen; rewrite (Forall2_length' I1); reflexivity).
  rewrite LI, <- El, I2. unfold head. rewrite <- !app_assoc. reflexivity.
Qed.
(** a file of 2 x 2 points with two images, stored as they are *)
Definition plain_codecs : codecs := {| c_zlib := framed_code; c_lzma := framed_code |}.
Theorem C112_example : exists b, write_sflz plain_codecs ex_cast ex_surface ex_layers 0 (str "none") true F8 = Ok b /\
  Forall (fun x => ascii (lname x) /\ In (ldt x) dtypes) ex_layers /\
  firstn 52 b = str "SFLZ1.0       " ++ [0;0;0;0;0;0;240;63; 0;0;0;0;0;0;0;64; 0; 0;0;0;0;0;0;0;0; 0;0;0;0;0;0;0;0; 3;0; 0;0; 0].
Proof.
  destruct (write_sflz plain_codecs ex_cast ex_surface ex_layers 0 (str "none") true F8) as [b|e] eqn:H.
  - exists b. split; [reflexivity|]. split.
    + repeat (constructor; [split; [vm_compute; repeat (constructor; [split; discriminate || reflexivity|]); constructor|cbn; tauto]|]). constructor.
    + assert (X : rmap (firstn 52) (write_sflz plain_codecs ex_cast ex_surface ex_layers 0 (str "none") true F8) =
        Ok (str "SFLZ1.0       " ++ [0;0;0;0;0;0;240;63; 0;0;0;0;0;0;0;64; 0; 0;0;0;0;0;0;0;0; 0;0;0;0;0;0;0;0; 3;0; 0;0; 0])) by (vm_compute; reflexivity).
      rewrite H in X. cbn [rmap] in X. now apply okinj in X.
  - exfalso. assert (X : rmap (fun _ => tt) (write_sflz plain_codecs ex_cast ex_surface ex_layers 0 (str "none") true F8) = Ok tt) by (vm_compute; reflexivity).
    rewrite H in X. discriminate.
Qed.
Print Assumptions C112_written.
Print Assumptions C112_example.
