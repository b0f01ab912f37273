(** Proofs about bytes, UTF-8, struct and layouts. *)
From Coq Require Import String Ascii ZArith Lia Bool.
From Coq Require Import List.
From Flocq Require Import IEEE754.BinarySingleNaN IEEE754.Binary IEEE754.Bits.
From Verif Require Import Base ModelBytes SpecBytes.
Import ListNotations.
Local Open Scope Z_scope.

Lemma zs_eqb_eq a : forall b, zs_eqb a b = true <-> a = b.
Proof.
  induction a as [|x a IH]; intros [|y b]; cbn; split; try congruence; auto.
  - intros H. apply andb_prop in H as [H1 H2]. apply Z.eqb_eq in H1. apply IH in H2. congruence.
  - intros H. injection H as -> ->. rewrite Z.eqb_refl. apply IH. reflexivity.
Qed.
Lemma zs_eqb_refl a : zs_eqb a a = true.
Proof. apply zs_eqb_eq. reflexivity. Qed.

(** ** Little endian *)
Lemma le_length n : forall v, length (le n v) = n.
Proof. induction n as [|n IH]; intros v; cbn [le length]; auto. Qed.
Lemma pow256_S n : 2 ^ (8 * Z.of_nat (S n)) = 256 * 2 ^ (8 * Z.of_nat n).
Proof.
  replace (8 * Z.of_nat (S n)) with (8 + 8 * Z.of_nat n) by lia. rewrite Z.pow_add_r by lia. reflexivity.
Qed.
Lemma unle_le n : forall v, 0 <= v < 2 ^ (8 * Z.of_nat n) -> unle (le n v) = v.
Proof.
  induction n as [|n IH]; intros v Hv.
  - cbn in *. lia.
  - cbn [le unle]. rewrite pow256_S in Hv. rewrite IH.
    + pose proof (Z.div_mod v 256). lia.
    + split; [apply Z.div_pos; lia|]. apply Z.div_lt_upper_bound; lia.
Qed.
Definition is_byte (b : Z) : Prop := 0 <= b < 256.
Lemma le_bytes n : forall v, Forall is_byte (le n v).
Proof.
  induction n as [|n IH]; intros v; cbn; constructor; auto. unfold is_byte. apply Z.mod_pos_bound. lia.
Qed.
Lemma pow_pos_8 n : 0 < 2 ^ (8 * Z.of_nat n).
Proof. apply Z.pow_pos_nonneg; lia. Qed.
Lemma pow_half n : (0 < n)%nat -> 2 ^ (8 * Z.of_nat n) = 2 * 2 ^ (8 * Z.of_nat n - 1).
Proof.
  intros H. replace (8 * Z.of_nat n) with (1 + (8 * Z.of_nat n - 1)) at 1 by lia. rewrite Z.pow_add_r by lia.
  reflexivity.
Qed.
Lemma to_signed_mod n z : (0 < n)%nat -> - 2 ^ (8 * Z.of_nat n - 1) <= z < 2 ^ (8 * Z.of_nat n - 1) ->
  to_signed n (z mod 2 ^ (8 * Z.of_nat n)) = z.
Proof.
  intros Hn Hz. unfold to_signed. pose proof (pow_half n Hn) as Hh. pose proof (pow_pos_8 n) as Hp.
  destruct (Z.ltb_spec z 0).
  - assert (E : z mod 2 ^ (8 * Z.of_nat n) = z + 2 ^ (8 * Z.of_nat n)).
    { rewrite <- (Z.mod_add z 1) by lia. rewrite Z.mul_1_l. apply Z.mod_small. lia. }
    cbv zeta. rewrite E. destruct (Z.ltb_spec (z + 2 ^ (8 * Z.of_nat n)) (2 ^ (8 * Z.of_nat n - 1))); lia.
  - rewrite Z.mod_small by lia. destruct (Z.ltb_spec z (2 ^ (8 * Z.of_nat n - 1))); lia.
Qed.

Lemma in_range_spec s n z : in_range s n z = true <-> int_fits s n z.
Proof.
  unfold in_range, int_fits. destruct s; rewrite Bool.andb_true_iff, Z.leb_le, Z.ltb_lt; reflexivity.
Qed.

Lemma pack_int s n z : (0 < n)%nat -> int_fits s n z ->
  exists b, pack (FInt s n) (VInt z) = Ok b /\ length b = n /\ unpack (FInt s n) b = Ok (VInt z).
Proof.
  intros Hn Hz. exists (le n (z mod 2 ^ (8 * Z.of_nat n))). repeat split.
  - cbn. apply in_range_spec in Hz. rewrite Hz. reflexivity.
  - apply le_length.
  - unfold unpack. cbn [calcsize]. rewrite le_length, Nat.eqb_refl. rewrite unle_le by (apply Z.mod_pos_bound, pow_pos_8).
    destruct s.
    + rewrite to_signed_mod; auto.
    + cbn in Hz. rewrite Z.mod_small; auto.
Qed.

(** ** Floats and bits *)
Lemma f64_bits x : unle (le 8 (bits_of_b64 x)) = bits_of_b64 x.
Proof.
  apply unle_le. pose proof (bits_of_binary_float_range 52 11 ltac:(lia) ltac:(lia) x) as H. exact H.
Qed.
Lemma f32_bits x : unle (le 4 (bits_of_b32 x)) = bits_of_b32 x.
Proof.
  apply unle_le. pose proof (bits_of_binary_float_range 23 8 ltac:(lia) ltac:(lia) x) as H. exact H.
Qed.
Lemma b64_bits_id x : b64_of_bits (bits_of_b64 x) = x.
Proof. exact (binary_float_of_bits_of_binary_float 52 11 eq_refl eq_refl eq_refl x). Qed.
Lemma b32_bits_id x : b32_of_bits (bits_of_b32 x) = x.
Proof. exact (binary_float_of_bits_of_binary_float 23 8 eq_refl eq_refl eq_refl x). Qed.
Lemma unpack_f64 x : unpack FF64 (le 8 (bits_of_b64 x)) = Ok (VFloat x).
Proof. unfold unpack. rewrite le_length. cbn [calcsize Nat.eqb]. rewrite f64_bits, b64_bits_id. reflexivity. Qed.
Lemma unpack_f32 x : unpack FF32 (le 4 (bits_of_b32 x)) = Ok (VFloat (f64_of_f32 x)).
Proof. unfold unpack. rewrite le_length. cbn [calcsize Nat.eqb]. rewrite f32_bits, b32_bits_id. reflexivity. Qed.

(** ** UTF-8 *)
Local Arguments Z.add : simpl never.
Local Arguments Z.mul : simpl never.
Local Arguments Z.sub : simpl never.
Local Arguments Z.ltb : simpl never.
Local Arguments Z.leb : simpl never.
Lemma utf8_char_decode c b : utf8_char c = Ok b -> forall rest,
  utf8_decode (b ++ rest) = rmap (cons c) (utf8_decode rest).
Proof.
  unfold utf8_char. intros H rest.
  destruct ((c <? 0) || (1114111 <? c) || is_surrogate c) eqn:Hbad; [discriminate|].
  apply orb_false_elim in Hbad as [Hbad Hsur]. apply orb_false_elim in Hbad as [H0 H1].
  apply Z.ltb_ge in H0. apply Z.ltb_ge in H1.
  destruct (Z.ltb_spec c 128).
  { injection H as <-. cbn [app utf8_decode]. destruct (Z.ltb_spec c 128); [reflexivity|lia]. }
  destruct (Z.ltb_spec c 2048).
  { injection H as <-. cbn [app utf8_decode].
    assert (Hd : 0 <= c / 64 < 32) by (split; [apply Z.div_pos; lia|apply Z.div_lt_upper_bound; lia]).
    assert (Hm : 0 <= c mod 64 < 64) by (apply Z.mod_pos_bound; lia).
    assert (E : (192 + c / 64 - 192) * 64 + (128 + c mod 64 - 128) = c)
      by (pose proof (Z.div_mod c 64); lia).
    destruct (Z.ltb_spec (192 + c / 64) 128); [lia|]. destruct (Z.ltb_spec (192 + c / 64) 192); [lia|].
    unfold is_cont. destruct (Z.leb_spec 128 (128 + c mod 64)); [|lia].
    destruct (Z.ltb_spec (128 + c mod 64) 192); [|lia]. cbn [andb negb].
    destruct (Z.ltb_spec (192 + c / 64) 224); [|lia]. cbv zeta. rewrite E.
    destruct (Z.leb_spec 128 c); [reflexivity|lia]. }
  destruct (Z.ltb_spec c 65536).
  { injection H as <-. cbn [app utf8_decode].
    assert (Hd : 0 <= c / 4096 < 16) by (split; [apply Z.div_pos; lia|apply Z.div_lt_upper_bound; lia]).
    assert (Hm : 0 <= c mod 64 < 64) by (apply Z.mod_pos_bound; lia).
    assert (Hm1 : 0 <= (c / 64) mod 64 < 64) by (apply Z.mod_pos_bound; lia).
    assert (E : (224 + c / 4096 - 224) * 4096 + (128 + (c / 64) mod 64 - 128) * 64 + (128 + c mod 64 - 128) = c).
    { pose proof (Z.div_mod c 64). pose proof (Z.div_mod (c / 64) 64) as H5.
      rewrite Z.div_div in H5 by lia. change (64 * 64) with 4096 in H5. lia. }
    destruct (Z.ltb_spec (224 + c / 4096) 128); [lia|]. destruct (Z.ltb_spec (224 + c / 4096) 192); [lia|].
    unfold is_cont. destruct (Z.leb_spec 128 (128 + c mod 64)); [|lia].
    destruct (Z.ltb_spec (128 + c mod 64) 192); [|lia].
    destruct (Z.leb_spec 128 (128 + (c / 64) mod 64)); [|lia].
    destruct (Z.ltb_spec (128 + (c / 64) mod 64) 192); [|lia]. cbn [andb negb].
    destruct (Z.ltb_spec (224 + c / 4096) 224); [lia|]. destruct (Z.ltb_spec (224 + c / 4096) 240); [|lia].
    cbv zeta. rewrite E. destruct (Z.leb_spec 2048 c); [|lia]. rewrite Hsur. reflexivity. }
  { injection H as <-. cbn [app utf8_decode].
    assert (Hd : 0 <= c / 262144 < 5) by (split; [apply Z.div_pos; lia|apply Z.div_lt_upper_bound; lia]).
    assert (Hm : 0 <= c mod 64 < 64) by (apply Z.mod_pos_bound; lia).
    assert (Hm1 : 0 <= (c / 64) mod 64 < 64) by (apply Z.mod_pos_bound; lia).
    assert (Hm2 : 0 <= (c / 4096) mod 64 < 64) by (apply Z.mod_pos_bound; lia).
    assert (E : (240 + c / 262144 - 240) * 262144 + (128 + (c / 4096) mod 64 - 128) * 4096
                + (128 + (c / 64) mod 64 - 128) * 64 + (128 + c mod 64 - 128) = c).
    { pose proof (Z.div_mod c 64). pose proof (Z.div_mod (c / 64) 64) as H5.
      rewrite Z.div_div in H5 by lia. change (64 * 64) with 4096 in H5.
      pose proof (Z.div_mod (c / 4096) 64) as H6. rewrite Z.div_div in H6 by lia.
      change (4096 * 64) with 262144 in H6. lia. }
    destruct (Z.ltb_spec (240 + c / 262144) 128); [lia|]. destruct (Z.ltb_spec (240 + c / 262144) 192); [lia|].
    unfold is_cont. destruct (Z.leb_spec 128 (128 + c mod 64)); [|lia].
    destruct (Z.ltb_spec (128 + c mod 64) 192); [|lia].
    destruct (Z.leb_spec 128 (128 + (c / 64) mod 64)); [|lia].
    destruct (Z.ltb_spec (128 + (c / 64) mod 64) 192); [|lia].
    destruct (Z.leb_spec 128 (128 + (c / 4096) mod 64)); [|lia].
    destruct (Z.ltb_spec (128 + (c / 4096) mod 64) 192); [|lia]. cbn [andb negb].
    destruct (Z.ltb_spec (240 + c / 262144) 224); [lia|]. destruct (Z.ltb_spec (240 + c / 262144) 240); [lia|].
    cbv zeta. rewrite E. destruct (Z.leb_spec 65536 c); [|lia]. destruct (Z.leb_spec c 1114111); [|lia]. reflexivity. }
Qed.
Lemma utf8_decode_encode s : forall b, utf8_encode s = Ok b -> utf8_decode b = Ok s.
Proof.
  induction s as [|c s IH]; intros b H; cbn in H.
  - injection H as <-. reflexivity.
  - destruct (utf8_char c) as [bc|] eqn:Ec; [|discriminate]. cbn in H.
    destruct (utf8_encode s) as [bs|] eqn:Es; [|discriminate]. cbn in H. injection H as <-.
    rewrite (utf8_char_decode c bc Ec), (IH bs eq_refl). reflexivity.
Qed.
Lemma utf8_encode_app s : forall t b, utf8_encode s = Ok b ->
  utf8_encode (s ++ t) = rmap (app b) (utf8_encode t).
Proof.
  induction s as [|c s IH]; intros t b H; cbn in H.
  - injection H as <-. cbn. destruct (utf8_encode t); reflexivity.
  - destruct (utf8_char c) as [bc|] eqn:Ec; [|discriminate]. cbn in H.
    destruct (utf8_encode s) as [bs|] eqn:Es; [|discriminate]. cbn in H. injection H as <-.
    cbn [app utf8_encode]. rewrite Ec. cbn [rbind]. rewrite (IH t bs eq_refl).
    destruct (utf8_encode t); cbn; [rewrite app_assoc; reflexivity|reflexivity].
Qed.
Lemma utf8_spaces k : utf8_encode (repeat 32 k) = Ok (repeat 32 k).
Proof. induction k as [|k IH]; [reflexivity|]. cbn [repeat utf8_encode]. rewrite IH. reflexivity. Qed.
Lemma encode_spaces w r s b k : compatible w r -> encode w s = Ok b ->
  encode w (s ++ repeat 32 k) = Ok (b ++ repeat 32 k).
Proof.
  intros C H. destruct w; cbn in *.
  - rewrite (utf8_encode_app s _ b H), utf8_spaces. reflexivity.
  - destruct (forallb _ s) eqn:Hf; [|discriminate]. injection H as <-.
    rewrite forallb_app, Hf. cbn [andb].
    replace (forallb _ (repeat 32 k)) with true; [reflexivity|]. symmetry. apply forallb_forall.
    intros x Hx. apply repeat_spec in Hx as ->. reflexivity.
  - discriminate.
Qed.
Lemma decode_encode w r s b : compatible w r -> encode w s = Ok b -> decode r b = Ok s.
Proof.
  intros [[-> [-> | ->]]|[-> ->]] H; cbn in *.
  - apply utf8_decode_encode, H.
  - rewrite (utf8_decode_encode s b H). reflexivity.
  - destruct (forallb _ s); [|discriminate]. congruence.
Qed.
Lemma utf8_char_length c b : utf8_char c = Ok b -> (1 <= length b)%nat.
Proof.
  unfold utf8_char. destruct (_ || _); [discriminate|].
  destruct (c <? 128); [intros H; injection H as <-; cbn; lia|].
  destruct (c <? 2048); [intros H; injection H as <-; cbn; lia|].
  destruct (c <? 65536); intros H; injection H as <-; cbn; lia.
Qed.
Lemma encode_length w s : forall b, encode w s = Ok b -> (length s <= length b)%nat.
Proof.
  destruct w; cbn; [|intros b; destruct (forallb _ s); [|discriminate]; intros H; injection H as <-; lia|discriminate].
  induction s as [|c s IH]; intros b H; cbn in H.
  - cbn; lia.
  - destruct (utf8_char c) as [bc|] eqn:Ec; [|discriminate]. cbn in H.
    destruct (utf8_encode s) as [bs|] eqn:Es; [|discriminate]. cbn in H. injection H as <-.
    apply utf8_char_length in Ec. specialize (IH bs eq_refl). rewrite app_length. cbn. lia.
Qed.

(** ** rstrip *)
Lemma rstrip_all p t : Forall (fun c => p c = true) t -> rstrip p t = [].
Proof. induction 1 as [|c t Hc Ht IH]; cbn; auto. rewrite IH, Hc. reflexivity. Qed.
Lemma rstrip_keep p s : forall t, Forall (fun c => p c = true) t ->
  (forall s' c, s = s' ++ [c] -> p c = false) -> rstrip p (s ++ t) = s.
Proof.
  induction s as [|c s IH]; intros t Ht Hs.
  - cbn. apply rstrip_all, Ht.
  - cbn [app rstrip]. rewrite IH; auto.
    + destruct s as [|d s]; [|reflexivity]. rewrite (Hs [] c eq_refl). reflexivity.
    + intros s' d E. apply (Hs (c :: s') d). rewrite E. reflexivity.
Qed.
Lemma Forall_repeat {A} (P : A -> Prop) x k : P x -> Forall P (repeat x k).
Proof. intros H. apply Forall_forall. intros y Hy. apply repeat_spec in Hy as ->. exact H. Qed.

(** ** Strings in fields *)
Lemma firstn_repeat {A} (x : A) n m : (n <= m)%nat -> firstn n (repeat x m) = repeat x n.
Proof. revert m. induction n as [|n IH]; intros [|m] H; cbn; auto; try lia. f_equal. apply IH. lia. Qed.
Lemma pack_str w r n s b : compatible w r -> encode w s = Ok b -> (length b <= n)%nat ->
  exists e, encode w (ljust n s) = Ok e /\ firstn n e ++ repeat 0 (n - length e) = b ++ repeat 32 (n - length b).
Proof.
  intros C H Hn. unfold ljust. exists (b ++ repeat 32 (n - length s)). split; [apply (encode_spaces w r); auto|].
  pose proof (encode_length w s b H).
  rewrite app_length, repeat_length.
  replace (n - (length b + (n - length s)))%nat with 0%nat by lia. rewrite app_nil_r.
  rewrite firstn_app, firstn_all2 by lia. rewrite firstn_repeat by lia. reflexivity.
Qed.
Lemma read_str_trailing w r n s t b : compatible w r -> encode w (s ++ t) = Ok b -> (length b <= n)%nat ->
  Forall (fun c => c = 32 \/ c = 0) t -> (forall s' c, s = s' ++ [c] -> c <> 32 /\ c <> 0) ->
  rmap (rstrip blank0) (decode r (b ++ repeat 32 (n - length b))) = Ok s.
Proof.
  intros C H Hn Hb Ht.
  rewrite (decode_encode w r ((s ++ t) ++ repeat 32 (n - length b)) _ C) by (apply (encode_spaces w r); auto).
  cbn [rmap]. f_equal. rewrite <- app_assoc. apply rstrip_keep.
  - apply Forall_app. split; [|apply Forall_repeat; reflexivity].
    eapply Forall_impl; [|exact Hb]. intros c [->| ->]; reflexivity.
  - intros s' c E. unfold blank0. destruct (Ht s' c E) as [H1 H2].
    destruct (Z.eqb_spec c 32); [lia|]. destruct (Z.eqb_spec c 0); [lia|]. reflexivity.
Qed.
Lemma read_str w r n s b : compatible w r -> encode w s = Ok b -> (length b <= n)%nat ->
  (forall s' c, s = s' ++ [c] -> c <> 32 /\ c <> 0) ->
  rmap (rstrip blank0) (decode r (b ++ repeat 32 (n - length b))) = Ok s.
Proof.
  intros C H Hn Ht. apply (read_str_trailing w r n s [] b); auto. rewrite app_nil_r. exact H.
Qed.

(** ** Files *)
Definition at_ (pre b : bytes) : fh := {| contents := pre ++ b; pos := length pre |}.
Lemma fread_at pre b rest : fread (length b) (at_ pre (b ++ rest)) = (b, at_ (pre ++ b) rest).
Proof.
  unfold fread, at_. cbn [contents pos].
  rewrite skipn_app, skipn_all, Nat.sub_diag. cbn [app skipn].
  rewrite firstn_app, firstn_all, Nat.sub_diag, firstn_O, app_nil_r, app_assoc, app_length. reflexivity.
Qed.
Lemma fskip_at pre b rest : fskip (length b) (at_ pre (b ++ rest)) = at_ (pre ++ b) rest.
Proof. unfold fskip, at_. cbn. rewrite app_assoc, app_length. reflexivity. Qed.

(** ** One field *)
Definition wfield (en : encoding) (f : fmt) (v : pyval) : res bytes :=
  rbind (match v with VStr s => rmap VBytes (encode en (ljust (calcsize f) s)) | _ => Ok v end) (fun v1 => pack f v1).
Lemma field_roundtrip w r f v v' : reads_back w r f v v' ->
  exists b, wfield w f v = Ok b /\ length b = calcsize f /\
    forall pre rest, read_value r f (at_ pre (b ++ rest)) = Ok (v', at_ (pre ++ b) rest).
Proof.
  intros H.
  assert (Hgen : forall b, wfield w f v = Ok b -> length b = calcsize f ->
     unpack f b = Ok v' -> (forall raw, v' <> VBytes raw) ->
     exists b, wfield w f v = Ok b /\ length b = calcsize f /\
    forall pre rest, read_value r f (at_ pre (b ++ rest)) = Ok (v', at_ (pre ++ b) rest)).
  { intros b Hb Hl Hu Hv. exists b. repeat split; auto. intros pre rest.
    unfold read_value. rewrite <- Hl, fread_at. rewrite Hu. cbn [rbind]. destruct v'; auto. destruct (Hv b0); auto. }
  assert (Hstr : forall n s s' b, compatible w r -> encode w s = Ok b -> (length b <= n)%nat ->
     rmap (rstrip blank0) (decode r (b ++ repeat 32 (n - length b))) = Ok s' ->
     exists b, wfield w (FStr n) (VStr s) = Ok b /\ length b = calcsize (FStr n) /\
     forall pre rest, read_value r (FStr n) (at_ pre (b ++ rest)) = Ok (VStr s', at_ (pre ++ b) rest)).
  { intros n s s' b C Hb Hl Hr. destruct (pack_str w r n s b C Hb Hl) as (e & He & Hp).
    exists (b ++ repeat 32 (n - length b)). split; [|split].
    + unfold wfield. cbn [calcsize]. rewrite He. cbn. rewrite Hp. reflexivity.
    + cbn [calcsize]. rewrite app_length, repeat_length. lia.
    + intros pre rest. unfold read_value. cbn [calcsize].
      assert (El : length (b ++ repeat 32 (n - length b)) = n) by (rewrite app_length, repeat_length; lia).
      rewrite <- El at 1. rewrite fread_at. unfold unpack. cbn [calcsize]. rewrite El, Nat.eqb_refl. cbn [rbind].
      destruct (decode r (b ++ repeat 32 (n - length b))) as [u|]; [|discriminate]. cbn in *. congruence. }
  inversion H; subst.
  - destruct (pack_int s n z) as (b & E1 & E2 & E3); auto. apply (Hgen b); auto. discriminate.
  - apply (Hgen (le 8 (bits_of_b64 x))); auto using le_length, unpack_f64. discriminate.
  - apply (Hgen (le 8 (bits_of_b64 (f64_of_Z z)))); auto using le_length, unpack_f64; [|discriminate].
    unfold wfield, pack, float_of_val. cbn [rbind]. rewrite H0. reflexivity.
  - apply (Hgen (le 4 (bits_of_b32 (f32_of_f64 x)))); auto using le_length, unpack_f32; [|discriminate].
    unfold wfield, pack, float_of_val. cbn [rbind].
    destruct (Binary.is_finite 53 1024 x) eqn:Hf; [rewrite H0 by reflexivity|]; reflexivity.
  - apply (Hgen (le 4 (bits_of_b32 (f32_of_f64 (f64_of_Z z))))); auto using le_length, unpack_f32; [|discriminate].
    unfold wfield, pack, float_of_val. cbn [rbind]. rewrite H0. cbn [rbind]. rewrite H0, H1. reflexivity.
  - apply (Hgen [Z.b2z b]); try reflexivity; [|discriminate]. destruct b; reflexivity.
  - destruct H1 as [(b & Hb & Hl) Ht]. apply (Hstr n s s b); auto. apply (read_str w r n s b); auto.
  - apply (Hstr n (s ++ t) s b); auto. apply (read_str_trailing w r n s t b); auto.
Qed.

(** ** Layouts *)
Lemma layout_roundtrip w r d acc l fin k : storable w r d acc l fin k ->
  exists b, write_layout w d l = Ok b /\ length b = k /\
    forall pre rest, read_layout_from r l acc (at_ pre (b ++ rest)) = Ok (fin, at_ (pre ++ b) rest).
Proof.
  induction 1 as [acc|n acc l fin k Hst IH|name f v v' acc l fin k Hv Hrb Hst IH
                 |name p z v v' acc l fin k Hp Hacc Hz Hv Hrb Hst IH
                 |name s n rd wr v x v' acc l fin k Hv Hwr Hn Hx Hrd Hst IH].
  - exists []. repeat split; auto. intros pre rest. cbn. rewrite app_nil_r. reflexivity.
  - destruct IH as (b & E1 & E2 & E3). exists (repeat 0 n ++ b). cbn [write_layout write_entry rbind]. rewrite E1.
    repeat split; [rewrite app_length, repeat_length, E2; reflexivity|].
    intros pre rest. cbn [read_layout_from read_entry rbind].
    replace (fskip n (at_ pre ((repeat 0 n ++ b) ++ rest))) with (at_ (pre ++ repeat 0 n) (b ++ rest)).
    + rewrite E3, app_assoc. reflexivity.
    + rewrite <- app_assoc, <- fskip_at, repeat_length. reflexivity.
  - destruct IH as (b & E1 & E2 & E3). destruct (field_roundtrip w r f v v' Hrb) as (bf & F1 & F2 & F3).
    exists (bf ++ b). cbn [write_layout write_entry rbind]. unfold dkey. rewrite Hv. cbn [rbind].
    unfold wfield in F1. rewrite F1. cbn [rbind]. rewrite E1. repeat split; [rewrite app_length; lia|].
    intros pre rest. cbn [read_layout_from read_entry rbind]. rewrite <- app_assoc, F3. cbn [rmap rbind].
    rewrite E3, app_assoc. reflexivity.
  - destruct IH as (b & E1 & E2 & E3).
    destruct (field_roundtrip w r _ v v' Hrb) as (bf & F1 & F2 & F3).
    assert (G : forall dd, dget dd p = Some (VInt z) -> get_format dd p = Ok (FStr (Z.to_nat z))).
    { intros dd Hd. unfold get_format, dkey. rewrite Hd. cbn [rbind]. destruct (Z.ltb_spec z 0); [lia|reflexivity]. }
    exists (bf ++ b). cbn [write_layout write_entry rbind]. rewrite (G d Hp). cbn [rbind].
    unfold dkey. rewrite Hv. cbn [rbind].
    unfold wfield in F1. rewrite F1. cbn [rbind]. rewrite E1.
    repeat split; [rewrite app_length; cbn [calcsize] in F2; lia|].
    intros pre rest. cbn [read_layout_from read_entry rbind]. rewrite (G acc Hacc). cbn [rbind].
    rewrite <- app_assoc, F3. cbn [rmap rbind]. rewrite E3, app_assoc. reflexivity.
  - destruct IH as (b & E1 & E2 & E3). destruct (pack_int s n x Hn Hx) as (bf & F1 & F2 & F3).
    exists (bf ++ b). cbn [write_layout write_entry rbind]. unfold dkey. rewrite Hv. cbn [rbind]. rewrite Hwr.
    cbn [rbind]. rewrite F1. cbn [rbind]. rewrite E1. repeat split; [rewrite app_length; lia|].
    intros pre rest. cbn [read_layout_from read_entry rbind]. cbn [calcsize]. rewrite <- app_assoc.
    rewrite <- F2 at 1. rewrite fread_at, F3. cbn [rbind]. rewrite Hrd. cbn [rmap rbind]. rewrite E3, app_assoc.
    reflexivity.
Qed.
