(** C90: the surface of a FITS file (surfalize/file/fits.py). *)
From Coq Require Import String Ascii ZArith Lia Bool Reals Lra.
From Coq Require Import List.
From Flocq Require Import IEEE754.BinarySingleNaN IEEE754.Binary IEEE754.Bits Core.
From Verif Require Import Base ModelBytes ModelUnits ModelSur ModelFormats ModelFits ModelFitsSurface SpecReaders SpecFits ProofBytes PropsMagic PropsLayout ProofReaders PropsFits ProofDat ProofFits
  PropsAl3d PropsTmd ProofFloat PropsSdf PropsVkValue ProofApx PropsUnits ExamplesGwy.
Import ListNotations.
Local Open Scope list_scope.
Local Open Scope Z_scope.

(** *** Pieces of equal length *)
Lemma concat_piece {A} n (L : list (list A)) : (forall c, In c L -> length c = n) -> forall i, (i < length L)%nat -> nth i L [] = firstn n (skipn (i * n) (concat L)).
Proof.
  induction L as [|c L IH]; intros H i Hi; [cbn [length] in Hi; lia|]. assert (Lc : length c = n) by (apply H; left; reflexivity). destruct i as [|i].
  - cbn [nth concat skipn Nat.mul]. rewrite firstn_app, Lc, Nat.sub_diag, firstn_O, app_nil_r, firstn_all2 by lia. reflexivity.
  - cbn [nth concat]. rewrite IH by (cbn [length] in Hi; try lia; intros d Hd; apply H; right; exact Hd). rewrite skipn_app, Lc. rewrite (skipn_all2 c) by lia. cbn [app]. do 2 f_equal. lia.
Qed.
Lemma concat_size {A} n (L : list (list A)) : (forall c, In c L -> length c = n) -> length (concat L) = (length L * n)%nat.
Proof. induction L as [|c L IH]; intros H; [reflexivity|]. cbn [concat length]. rewrite app_length, IH by (intros d Hd; apply H; right; exact Hd). rewrite (H c) by (left; reflexivity). lia. Qed.
Lemma nth_cut {A} (d : A) l : forall i n j, (j < n)%nat -> nth j (firstn n (skipn i l)) d = nth (i + j) l d.
Proof.
  intros i n j H. revert l n j H. induction i as [|i IH]; intros l n j H.
  - cbn [skipn Nat.add]. revert n j H. induction l as [|a l IHl]; intros [|n] j H; try lia; [destruct j; reflexivity|]. destruct j as [|j]; [reflexivity|]. cbn [firstn nth]. apply IHl. lia.
  - destruct l as [|a l]; [rewrite skipn_nil, firstn_nil; destruct j; reflexivity|]. cbn [skipn Nat.add nth]. apply IH, H.
Qed.
(** the items of a layer are the numbers of the data *)
Definition layer_table (l : hdu) : list (list f64) := map (map (item_value (h_bitpix l))) (h_items l).
Lemma item_number x i j : bitpix_size (i_bitpix x) = Some (i_size x) -> (((i * i_n1 x + j) * i_size x) + i_size x <= length (i_data x))%nat ->
  item_value (i_bitpix x) (slice ((i * i_n1 x + j) * i_size x) (i_size x) (i_data x)) = number x i j.
Proof.
  intros B L. unfold item_value, number. cbv zeta. rewrite unle_rev_slice by exact L. rewrite slice_length. replace (Nat.min (i_size x) (length (i_data x) - (i * i_n1 x + j) * i_size x)) with (i_size x) by lia.
  unfold bitpix_size in B. repeat match type of B with (if Z.eqb ?a ?b then _ else _) = _ => destruct (Z.eqb_spec a b) as [e|?]; [rewrite e; injection B as <-; reflexivity|] end. discriminate.
Qed.
Definition ext_of (float_of : pystr -> res f64) (x : image_ext) : ext :=
  {| x_block := last_block (i_lines x); x_dict := dict float_of (i_lines x); x_bitpix := i_bitpix x; x_size := i_size x; x_n1 := i_n1 x; x_n2 := i_n2 x; x_data := i_data x; x_name := HStr (i_name x) |}.
Lemma layer_numbers float_of x l : good_ext float_of x -> is_layer (ext_of float_of x) l -> table_is (layer_table l) (i_n2 x) (i_n1 x) (fun i j v => v = number x i j).
Proof.
  intros G (_ & B & L & R & C). cbn [ext_of x_bitpix x_n2 x_n1 x_size x_data] in *. pose proof (gx_data _ _ G) as D. pose proof (gx_size _ _ G) as Sz.
  assert (R1 : forall r, In r (h_items l) -> length r = i_n1 x) by (intros r Hr; apply R, Hr).
  assert (R2 : forall c, In c (concat (h_items l)) -> length c = i_size x) by (intros c Hc; apply in_concat in Hc as (r & Hr & Hc); apply (R r Hr), Hc).
  pose proof (concat_size _ _ R1) as N1. rewrite L in N1.
  unfold table_is, layer_table. rewrite map_length. split; [exact L|]. intros i Hi. exists (map (item_value (h_bitpix l)) (nth i (h_items l) [])).
  assert (Hi' : (i < length (h_items l))%nat) by (rewrite L; exact Hi). pose proof (R1 _ (nth_In _ [] Hi')) as Lr.
  split; [rewrite nth_error_map, (nth_error_nth' _ [] Hi'); reflexivity|]. rewrite map_length. split; [exact Lr|]. intros j Hj. exists (item_value (h_bitpix l) (nth j (nth i (h_items l) []) [])). split; [rewrite nth_error_map; rewrite (nth_error_nth' (nth i (h_items l) []) ([] : bytes)) by (rewrite Lr; exact Hj); reflexivity|].
  rewrite (concat_piece _ _ R1 i Hi'). rewrite nth_cut by exact Hj. assert (K : (i * i_n1 x + j < length (concat (h_items l)))%nat) by (rewrite N1; nia).
  transitivity (item_value (h_bitpix l) (slice ((i * i_n1 x + j) * i_size x) (i_size x) (i_data x))); [f_equal; rewrite <- C; exact (concat_piece _ _ R2 _ K)|]. rewrite B. apply item_number; [exact Sz|]. rewrite D. rewrite N1 in K. nia.
Qed.

Section Reading.
Variable float_of : pystr -> res f64.
Variable en : encoding.
Lemma startsb_app p : forall s, startsb p (p ++ s) = true.
Proof. induction p as [|c p IH]; intros s; [reflexivity|]. cbn [app startsb]. rewrite Z.eqb_refl. apply IH. Qed.
Lemma says_get ls k v : says float_of ls k v -> hget (str k) (dict float_of ls) = Some v.
Proof. intros (t & E & C). rewrite hget_dict, E, C. reflexivity. Qed.
Lemma ext_ok x : good_ext float_of x -> ok_ext float_of en (ext_of float_of x).
Proof.
  intros G. destruct (parse_last float_of _ (gx_lines _ _ G)) as [L P]. constructor; cbn [ext_of x_block x_dict x_bitpix x_size x_n1 x_n2 x_data x_name].
  - exact L.
  - destruct (gx_start _ _ G) as (h & v & a & b & c & r & ls & E & ->). rewrite E. unfold last_block, lines_text, ljust. cbn [map concat line_text app]. rewrite <- !app_assoc. apply startsb_app.
  - exists (last_block (i_lines x)), true. split; [apply decode_ascii, ascii_last, G|exact P].
  - apply says_get, G.
  - apply says_get, G.
  - apply says_get, G.
  - apply says_get, G.
  - apply G.
  - apply says_get, G.
  - apply G.
Qed.
Lemma pad_padding n : pad n = padding n.
Proof. unfold pad, padding. pose proof (Nat.mod_upper_bound n 2880 ltac:(lia)) as H. destruct (n mod 2880)%nat as [|m] eqn:E; [reflexivity|]. apply Nat.mod_small. lia. Qed.
(** layers of different names are kept in the order of the file *)
Definition layer_list (xs : list image_ext) (ls : list hdu) : layers := combine (map (fun x => HStr (i_name x)) xs) ls.
Lemma lset_new k v l : (forall k', In k' (map fst l) -> hval_eqb k k' = false) -> lset k v l = l ++ [(k, v)].
Proof. induction l as [|[a b] l IH]; intros H; [reflexivity|]. cbn [lset]. rewrite (H a) by (left; reflexivity). rewrite IH by (intros k' Hk; apply H; right; exact Hk). reflexivity. Qed.
Lemma lset_all xs : forall ls acc, length ls = length xs -> NoDup (map i_name xs) -> (forall x k', In x xs -> In k' (map fst acc) -> hval_eqb (HStr (i_name x)) k' = false) ->
  fold_left (fun ls '(x, l) => lset (x_name x) l ls) (combine (map (ext_of float_of) xs) ls) acc = acc ++ layer_list xs ls.
Proof.
  induction xs as [|x xs IH]; intros [|l ls] acc E N H; try discriminate E; [unfold layer_list; cbn; rewrite app_nil_r; reflexivity|].
  cbn [map combine fold_left ext_of x_name]. inversion N as [|? ? Nx N']; subst. rewrite lset_new by (intros k' Hk; apply (H x k'); [left; reflexivity|exact Hk]).
  rewrite IH; [unfold layer_list; cbn [map combine]; rewrite <- app_assoc; reflexivity|cbn [length] in E; lia|exact N'|].
  intros y k' Hy Hk. rewrite map_app in Hk. apply in_app_or in Hk as [Hk|Hk]; [apply H; [right; exact Hy|exact Hk]|]. cbn [map fst In] in Hk. destruct Hk as [<-|[]]. cbn [hval_eqb].
  destruct (zs_eqb (i_name y) (i_name x)) eqn:Z; [|reflexivity]. apply zs_eqb_eq in Z. exfalso. apply Nx. rewrite <- Z. apply in_map, Hy.
Qed.
Lemma hdus_read (pre : bytes) xs : Forall (good_ext float_of) xs -> NoDup (map i_name xs) -> (forall x, In x xs -> (length (i_data x) mod 2880 <> 0)%nat) ->
  exists fuel ls, read_hdus float_of fuel en [] {| contents := pre ++ concat (map ext_text xs); pos := length pre |} = Some (Ok (layer_list xs ls)) /\
    Forall2 (fun x l => is_layer (ext_of float_of x) l) xs ls.
Proof.
  intros G N M. destruct (C56_extensions float_of en pre (map (ext_of float_of) xs)) as (fuel & ls & E & F).
  - rewrite Forall_map. eapply Forall_impl; [|exact G]. intros x Hx. apply ext_ok, Hx.
  - intros y Hy. apply in_map_iff in Hy as (x & <- & Hx). exact (M x Hx).
  - exists fuel, ls. assert (F' : Forall2 (fun x l => is_layer (ext_of float_of x) l) xs ls).
    { clear - F. revert ls F. induction xs as [|x xs IH]; intros ls F; inversion F; subst; constructor; auto. }
    split; [|exact F']. rewrite map_map in E. rewrite (map_ext ext_text (fun x => ext_bytes (ext_of float_of x))).
    + rewrite E. rewrite lset_all; [reflexivity| |exact N|intros x k' _ []]. clear - F'. induction F'; cbn [length]; lia.
    + intros x. unfold ext_text, ext_bytes. cbn [ext_of x_block x_data]. rewrite pad_padding. reflexivity.
Qed.
(** running longer changes nothing *)
Lemma read_header_more n : forall d h r, read_header float_of n en d h = Some r -> forall m, (n <= m)%nat -> read_header float_of m en d h = Some r.
Proof.
  induction n as [|n IH]; intros d h r H m Hm; [discriminate|]. destruct m as [|m]; [lia|]. cbn [read_header] in *. destruct (header_step float_of en d h) as [[[d' [|]]|e] h']; [exact H| |exact H]. apply IH; [exact H|lia].
Qed.
Lemma read_hdus_more n : forall ls h r, read_hdus float_of n en ls h = Some r -> forall m, (n <= m)%nat -> read_hdus float_of m en ls h = Some r.
Proof.
  induction n as [|n IH]; intros ls h r H m Hm; [discriminate|]. destruct m as [|m]; [lia|]. cbn [read_hdus] in *. destruct (hdu_step float_of en ls h) as [[ls' h']|e]; [|exact H]. destruct (Nat.leb _ _); [exact H|]. apply IH; [exact H|lia].
Qed.
Lemma lget_layer xs ls : Forall2 (fun x l => is_layer (ext_of float_of x) l) xs ls -> NoDup (map i_name xs) -> forall x, In x xs -> exists l, lget (HStr (i_name x)) (layer_list xs ls) = Some l /\ is_layer (ext_of float_of x) l.
Proof.
  induction 1 as [|x l xs ls Hx F IH]; intros N y Hy; [destruct Hy|]. inversion N as [|? ? Nx N']; subst. unfold layer_list. cbn [map combine lget hval_eqb]. destruct Hy as [<-|Hy].
  - rewrite zs_eqb_refl. exists l. auto.
  - destruct (zs_eqb (i_name y) (i_name x)) eqn:Z; [apply zs_eqb_eq in Z; exfalso; apply Nx; rewrite <- Z; apply in_map, Hy|]. apply IH; assumption.
Qed.
Lemma lget_none xs ls k : (forall x, In x xs -> i_name x <> k) -> lget (HStr k) (layer_list xs ls) = None.
Proof.
  revert ls. induction xs as [|x xs IH]; intros [|l ls] H; try reflexivity. unfold layer_list. cbn [map combine lget hval_eqb].
  destruct (zs_eqb k (i_name x)) eqn:Z; [apply zs_eqb_eq in Z; exfalso; apply (H x); [left; reflexivity|congruence]|]. apply IH. intros y Hy. apply H. right. exact Hy.
Qed.
End Reading.

(** *** Header numbers *)
Local Open Scope R_scope.
Definition numeric (v : hval) : R := match v with HInt z => IZR z | HFloat x => val x | HStr _ => 0 end.
(** a number of moderate size *)
Definition modest (x : f64) : Prop := Binary.is_finite 53 1024 x = true /\ (val x = 0 \/ bpow radix2 (-300) <= Rabs (val x) <= bpow radix2 300).
Definition moderate (v : hval) : Prop := match v with HInt z => (Z.abs z <= 2 ^ 53)%Z | HFloat x => modest x | HStr _ => False end.

Lemma apx_weaken n m x v : (n <= m)%nat -> apx n x v -> apx m x v.
Proof. intros H (F & d & E & D). split; [exact F|]. exists d. split; [exact E|]. pose proof e53_small as He. pose proof (Rle_pow (1 + e53) n m ltac:(lra) H). lra. Qed.
Lemma int_apx0 z : (Z.abs z <= 2 ^ 53)%Z -> apx 0 (f64_of_Z z) (IZR z).
Proof. intros H. destruct (f64_of_Z_ok z H) as [E F]. rewrite <- E. apply apx_exact, F. Qed.
Lemma int_apx z : (Z.abs z <= 2 ^ 500)%Z -> apx 1 (f64_of_Z z) (IZR z).
Proof.
  intros H. assert (E : F2R (Float radix2 z 0) = IZR z) by (unfold F2R; cbn; lra). destruct (f64_make_ok z 0) as [H1 H2].
  { rewrite E, <- abs_IZR. change (bpow radix2 1000) with (IZR (2 ^ 1000)). apply IZR_le. eapply Z.le_trans; [exact H|]. apply Z.pow_le_mono_r; lia. }
  split; [exact H2|]. destruct (rnd64_rel_ex (IZR z)) as (d & D1 & D2).
  - destruct (Z.eq_dec z 0) as [-> |N]; [right; reflexivity|left]. rewrite <- abs_IZR. apply Rle_trans with (bpow radix2 0); [apply bpow_le; lia|]. change (bpow radix2 0) with 1. apply IZR_le. lia.
  - exists d. change R64 with (B2R 53 1024). unfold f64_of_Z. split; [rewrite <- D1, <- E; exact H1|]. replace ((1 + e53) ^ 1 - 1) with e53 by (simpl; ring). exact D2.
Qed.
Definition hap (k : nat) (v : hval) (q : R) : Prop :=
  match v with HInt z => q = IZR z /\ (Z.abs z <= 2 ^ 100)%Z | HFloat x => apx k x q | HStr _ => False end.
Lemma moderate_hap v : moderate v -> hap 0 v (numeric v) /\ sized_r 300 300 (numeric v).
Proof.
  destruct v as [z|x|t]; cbn [moderate hap numeric]; [|intros [F S]|intros []].
  - intros H. split; [split; [reflexivity|eapply Z.le_trans; [exact H|apply Z.pow_le_mono_r; lia]]|]. destruct (int_sized z 53 ltac:(lia) H) as [Z|[A B]]; [left; exact Z|right]. split; [eapply Rle_trans; [|exact A]; apply bpow_le; lia|eapply Rle_trans; [exact B|apply bpow_le; lia]].
  - split; [apply apx_exact, F|exact S].
Qed.
Lemma factor_apx lower u e m : lower_ok lower -> conversion_exponent lower u (str "um") = Ok e -> moderate m ->
  exists c v, hfactor lower (HStr u) = Ok c /\ hmul m c = Ok v /\ hap 2 v (numeric m * powerRZ 10 e) /\ sized_r 320 320 (numeric m * powerRZ 10 e).
Proof.
  intros Hl E M. pose proof (exponent_range _ _ _ Hl E) as B. destruct (pow10_apx e B) as [P Q]. destruct (moderate_hap m M) as [M1 M2].
  assert (Sz : sized_r 320 320 (numeric m * powerRZ 10 e)) by (pose proof (sized_mult _ _ _ _ _ _ M2 Q) as X; exact X).
  unfold hfactor. rewrite E. cbn [rmap]. destruct (Z.leb_spec 0 e) as [L|L].
  - assert (B10 : (1 <= 10 ^ e <= 1000000)%Z) by (split; [change 1%Z with (10 ^ 0)%Z|change 1000000%Z with (10 ^ 6)%Z]; apply Z.pow_le_mono_r; lia).
    assert (V10 : powerRZ 10 e = IZR (10 ^ e)) by (rewrite <- (Z2Nat.id e L), <- pow_powerRZ, pow_IZR; reflexivity).
    destruct m as [z|x|t]; cbn [hmul]; [| |destruct M].
    + eexists _, _. split; [reflexivity|]. split; [reflexivity|]. split; [|exact Sz]. cbn [hap numeric]. rewrite V10, mult_IZR. split; [reflexivity|]. rewrite Z.abs_mul. cbn [moderate] in M.
      change (2 ^ 100)%Z with (2 ^ 53 * 2 ^ 47)%Z. apply Z.mul_le_mono_nonneg; [lia|exact M|lia|]. rewrite Z.abs_eq by lia. eapply Z.le_trans; [apply B10|]. vm_compute. discriminate.
    + eexists _, _. split; [reflexivity|]. split; [reflexivity|]. split; [|exact Sz]. cbn [hap numeric] in *.
      apply (apx_weaken 1); [lia|]. rewrite V10 in *. apply (apx_mult 0 0 1 _ _ _ _ 300 300 20 20); [exact M1| |exact M2|exact Q|reflexivity|lia|lia|lia|lia]. apply int_apx0. eapply Z.le_trans; [|apply (Z.pow_le_mono_r 2 20); lia]. rewrite Z.abs_eq by lia. change (2 ^ 20)%Z with 1048576%Z. lia.
  - destruct m as [z|x|t]; cbn [hmul]; [| |destruct M].
    + eexists _, _. split; [reflexivity|]. split; [reflexivity|]. split; [|exact Sz]. cbn [hap numeric] in *. apply (apx_mult 0 1 2 _ _ _ _ 300 300 20 20); [apply int_apx0; exact M|exact P|exact M2|exact Q|reflexivity|lia|lia|lia|lia].
    + eexists _, _. split; [reflexivity|]. split; [reflexivity|]. split; [|exact Sz]. cbn [hap numeric] in *. apply (apx_mult 0 1 2 _ _ _ _ 300 300 20 20); [exact M1|exact P|exact M2|exact Q|reflexivity|lia|lia|lia|lia].
Qed.
Lemma hfloat_apx v q : hap 2 v q -> exists z, hfloat v = Ok z /\ apx 2 z q.
Proof.
  destruct v as [z|x|t]; cbn [hap hfloat]; [intros [-> H]|intros H|intros []]; eexists; (split; [reflexivity|]); [|exact H]. apply (apx_weaken 1); [lia|]. apply int_apx. eapply Z.le_trans; [exact H|]. apply Z.pow_le_mono_r; lia.
Qed.
Lemma times_apx d v q : moderate d -> hap 2 v q -> sized_r 320 320 q -> exists w x, hmul d v = Ok w /\ hfloat w = Ok x /\ close x (numeric d * q).
Proof.
  intros M H S. destruct (moderate_hap d M) as [M1 M2].
  assert (C : forall n x, (n <= 3)%nat -> apx n x (numeric d * q) -> close x (numeric d * q)) by (intros n x Hn A; apply (apx_weaken n 3) in A; [|exact Hn]; split; [exact (proj1 A)|exact (apx_err 3 _ _ _ A three)]).
  destruct d as [z|x|t]; [| |destruct M]; (destruct v as [y|y|t]; [| |destruct H]); cbn [hmul hfloat hap numeric moderate] in *; eexists _, _; (split; [reflexivity|]); (split; [cbn [hfloat]; reflexivity|]).
  - destruct H as [-> H]. rewrite <- mult_IZR. rewrite <- mult_IZR in C. apply (C 1%nat); [lia|]. apply int_apx. rewrite Z.abs_mul. eapply Z.le_trans; [apply Z.mul_le_mono_nonneg; [lia|exact M|lia|exact H]|]. rewrite <- Z.pow_add_r by lia. apply Z.pow_le_mono_r; lia.
  - apply (C 3%nat); [lia|]. apply (apx_mult 0 2 3 _ _ _ _ 300 300 320 320); [apply int_apx0; exact M|exact H|exact M2|exact S|reflexivity|lia|lia|lia|lia].
  - destruct H as [-> H]. apply (C 2%nat); [lia|]. apply (apx_mult 0 1 2 _ _ _ _ 300 300 320 320); [exact M1|apply int_apx; eapply Z.le_trans; [exact H|apply Z.pow_le_mono_r; lia]|exact M2|exact S|reflexivity|lia|lia|lia|lia].
  - apply (C 3%nat); [lia|]. apply (apx_mult 0 2 3 _ _ _ _ 300 300 320 320); [exact M1|exact H|exact M2|exact S|reflexivity|lia|lia|lia|lia].
Qed.

(** *** The surface *)
Lemma truth_zero (x : f64) : truth (VFloat x) = false <-> Binary.is_finite 53 1024 x = true /\ val x = 0.
Proof.
  unfold val. destruct x as [s|s|s pl H|s m e H]; cbn [truth Binary.is_finite]; split; try discriminate; try (intros [X _]; discriminate X); auto.
  intros [_ Z]. exfalso. cbn [B2R] in Z. apply eq_0_F2R in Z. destruct s; discriminate Z.
Qed.
(** points taken out by the extension MASK: those where it is 0 *)
Definition masked_out (f : fits_file) (i j : nat) : Prop :=
  exists m, In m (p_exts f) /\ i_name m = str "MASK" /\ Binary.is_finite 53 1024 (number m i j) = true /\ val (number m i j) = 0.
Definition others (f : fits_file) : list image_ext := List.filter (fun x => negb (zs_eqb (i_name x) (str "HEIGHTS") || zs_eqb (i_name x) (str "MASK"))) (p_exts f).
Lemma iset_new k v l : ~ In k (map fst l) -> iset k v l = l ++ [(k, v)].
Proof.
  induction l as [|[a b] l IH]; intros H; [reflexivity|]. cbn [iset]. destruct (zs_eqb k a) eqn:E; [apply zs_eqb_eq in E; exfalso; apply H; left; symmetry; exact E|]. rewrite IH; [reflexivity|]. intros X. apply H. right. exact X.
Qed.
Lemma images_ok capitalize xs ls acc : length ls = length xs -> exists im, fits_images capitalize (layer_list xs ls) acc = Ok im.
Proof.
  revert ls acc. induction xs as [|x xs IH]; intros [|l ls] acc E; try discriminate E; [eexists; reflexivity|]. unfold layer_list. cbn [map combine fits_images]. destruct (hval_eqb _ _ || hval_eqb _ _); apply IH; cbn [length] in E; lia.
Qed.
Lemma images_are float_of capitalize xs ls : Forall2 (fun x l => is_layer (ext_of float_of x) l) xs ls -> forall acc, 
  let o := List.filter (fun x => negb (zs_eqb (i_name x) (str "HEIGHTS") || zs_eqb (i_name x) (str "MASK"))) xs in
  NoDup (map fst acc ++ map (fun x => capitalize (i_name x)) o) ->
  exists im, fits_images capitalize (layer_list xs ls) acc = Ok (acc ++ im) /\ Forall2 (fun x '(k, l) => k = capitalize (i_name x) /\ is_layer (ext_of float_of x) l) o im.
Proof.
  induction 1 as [|x l xs ls Hx F IH]; intros acc o N; [exists []; rewrite app_nil_r; split; [reflexivity|constructor]|]. unfold o in *. unfold layer_list. cbn [map combine fits_images hval_eqb List.filter] in *.
  destruct (zs_eqb (i_name x) (str "HEIGHTS") || zs_eqb (i_name x) (str "MASK")); cbn [negb map] in *; [apply IH, N|].
  rewrite iset_new by (intros X; apply NoDup_remove_2 in N; apply N; apply in_or_app; left; exact X).
  destruct (IH (acc ++ [(capitalize (i_name x), l)])) as (im & E & G).
  - rewrite map_app. cbn [map fst]. rewrite <- app_assoc. exact N.
  - exists ((capitalize (i_name x), l) :: im). unfold layer_list in E. rewrite E. rewrite <- app_assoc. split; [reflexivity|]. constructor; [auto|exact G].
Qed.
Lemma table_hd {A} (m : list (list A)) ny nx P : table_is m ny nx P -> (0 < ny)%nat -> length (hd [] m) = nx.
Proof. intros [L H] Hy. destruct (H 0%nat Hy) as (row & R & Lr & _). destruct m; [discriminate R|]. injection R as <-. exact Lr. Qed.
Lemma nth_combine {A B} (a : list A) (b : list B) i x y : nth_error a i = Some x -> nth_error b i = Some y -> nth_error (combine a b) i = Some (x, y).
Proof. revert b i. induction a as [|u a IH]; intros [|v b] [|i] H1 H2; try discriminate; cbn in *; [congruence|apply IH; assumption]. Qed.

Section Surface.
Variable float_of : pystr -> res f64.
Lemma heights_read f ls hx : good_file float_of f -> Forall2 (fun x l => is_layer (ext_of float_of x) l) (p_exts f) ls -> In hx (p_exts f) -> i_name hx = str "HEIGHTS" ->
  (forall m, In m (p_exts f) -> i_name m = str "MASK" -> i_n1 m = i_n1 hx /\ i_n2 m = i_n2 hx) ->
  exists data, heights (layer_list (p_exts f) ls) = Ok data /\
    table_is data (i_n2 hx) (i_n1 hx) (fun i j x => (masked_out f i j -> x = nan64) /\ (~ masked_out f i j -> x = number hx i j)).
Proof.
  intros G F Hh Nh Hm. pose proof (gf_names _ _ G) as N. unfold heights.
  destruct (lget_layer float_of _ _ F N hx Hh) as (lh & Eh & Lh). rewrite Nh in Eh. rewrite Eh. pose proof (gf_exts _ _ G) as Ge. rewrite Forall_forall in Ge.
  pose proof (layer_numbers float_of hx lh (Ge _ Hh) Lh) as Th. unfold layer_table in Th.
  assert (Pos : (0 < i_n2 hx)%nat).
  { pose proof (gf_pad _ _ G hx Hh) as P. rewrite (gx_data _ _ (Ge _ Hh)) in P. destruct (i_n2 hx); [|lia]. exfalso. apply P. rewrite Nat.mul_0_r. reflexivity. }
  destruct (existsb (fun x => zs_eqb (i_name x) (str "MASK")) (p_exts f)) eqn:X.
  - apply existsb_exists in X as (mx & Im & Em). apply zs_eqb_eq in Em. destruct (lget_layer float_of _ _ F N mx Im) as (lm & El & Lm). rewrite Em in El. rewrite El.
    pose proof (layer_numbers float_of mx lm (Ge _ Im) Lm) as Tm. unfold layer_table in Tm. destruct (Hm mx Im Em) as [M1 M2]. rewrite M1, M2 in Tm.
    rewrite (proj1 Th), (proj1 Tm), (table_hd _ _ _ _ Th Pos), (table_hd _ _ _ _ Tm Pos), !Nat.eqb_refl. cbn [andb]. eexists. split; [reflexivity|].
    split; [rewrite map_length, combine_length, (proj1 Th), (proj1 Tm); apply Nat.min_id|]. intros i Hi. destruct (proj2 Th i Hi) as (r & R1 & R2 & R3). destruct (proj2 Tm i Hi) as (q & Q1 & Q2 & Q3).
    eexists. split; [rewrite nth_error_map, (nth_combine _ _ _ _ _ R1 Q1); reflexivity|]. split; [rewrite map_length, combine_length, R2, Q2; apply Nat.min_id|]. intros j Hj. destruct (R3 j Hj) as (x & X1 & X2). destruct (Q3 j Hj) as (k & K1 & K2).
    eexists. split; [rewrite nth_error_map, (nth_combine _ _ _ _ _ X1 K1); reflexivity|]. cbv beta iota.
    assert (W : masked_out f i j <-> truth (VFloat k) = false).
    { rewrite truth_zero, K2. split.
      - intros (m & I1 & E1 & D). assert (m = mx); [|subst m; exact D]. clear - I1 Im E1 Em N. revert I1 Im. induction (p_exts f) as [|a l IH]; [intros []|]. cbn [map] in N. inversion N as [|? ? Na N']; subst. intros [->|I1] [->|I2]; [reflexivity| | |apply IH; assumption].
        + exfalso. apply Na. rewrite E1, <- Em. apply in_map, I2.
        + exfalso. apply Na. rewrite Em, <- E1. apply in_map, I1.
      - intros D. exists mx. auto. }
    destruct (truth (VFloat k)); split; intros H; try reflexivity; try exact X2; [apply W in H; discriminate H|]. exfalso. apply H, W. reflexivity.
  - assert (X' : forall m, In m (p_exts f) -> i_name m <> str "MASK").
    { intros m I1 E1. assert (T : existsb (fun x => zs_eqb (i_name x) (str "MASK")) (p_exts f) = true); [|congruence]. apply existsb_exists. exists m. split; [exact I1|]. rewrite E1. apply zs_eqb_refl. }
    rewrite lget_none by exact X'. eexists. split; [reflexivity|]. split; [apply Th|]. intros i Hi. destruct (proj2 Th i Hi) as (r & R1 & R2 & R3). exists r. split; [exact R1|]. split; [exact R2|]. intros j Hj. destruct (R3 j Hj) as (x & X1 & X2). exists x. split; [exact X1|]. split; [|intros _; exact X2].
    intros (m & I1 & E1 & _). destruct (X' m I1 E1).
Qed.
Lemma file_start f : good_file float_of f -> zs_eqb (firstn 6 (file_of f)) (str "SIMPLE") = true.
Proof.
  intros G. destruct (gf_start _ _ G) as (v & a & b & c & r & ls & E). unfold cards_of in E. unfold file_of. destruct (p_full f) as [|blk full] eqn:P.
  - cbn [concat app] in E. rewrite E. unfold last_block, lines_text, ljust. cbn [map concat line_text app]. reflexivity.
  - cbn [concat map] in *. pose proof (gf_full _ _ G) as Gf. rewrite P in Gf. inversion Gf as [|? ? [Lb _] _]; subst. destruct blk as [|l0 blk]; [discriminate Lb|]. cbn [app] in E. injection E as -> _. unfold full_block at 1, lines_text, ljust. cbn [map concat line_text app]. reflexivity.
Qed.
End Surface.

(** C90: a well-formed FITS file of a height map is read as it says.  The heights are the numbers of the extension HEIGHTS times the
    height factor, in micrometres; NaN where the extension MASK is 0; both steps with the lateral factor of UNITX; the other
    extensions become the images, in order; the header entries become the metadata. *)
Theorem C90_fits : forall (float_of : pystr -> res f64) lower capitalize en images (f : fits_file) hx md mh ux uz dx dy fx fz,
  lower_ok lower -> good_file float_of f -> In hx (p_exts f) -> i_name hx = str "HEIGHTS" ->
  (forall m, In m (p_exts f) -> i_name m = str "MASK" -> i_n1 m = i_n1 hx /\ i_n2 m = i_n2 hx) ->
  says float_of (cards_of f) "UnitMultiplicatorDeltas" md -> says float_of (cards_of f) "UnitMultiplicatorHeights" mh ->
  says float_of (cards_of f) "UNITX" (HStr ux) -> says float_of (cards_of f) "UNITZ" (HStr uz) ->
  says float_of (cards_of f) "DELTAX" dx -> says float_of (cards_of f) "DELTAY" dy ->
  moderate md -> moderate mh -> moderate dx -> moderate dy ->
  get_unit_conversion lower ux (str "um") = Ok fx -> get_unit_conversion lower uz (str "um") = Ok fz ->
  exists fuel0 s im d, (forall fuel, (fuel0 <= fuel)%nat -> read_fits_surface float_of lower capitalize fuel en images (file_of f) = Some (Ok (s, im, d))) /\
    table_is (rdata s) (i_n2 hx) (i_n1 hx) (fun i j x => (masked_out f i j -> Binary.is_nan 53 1024 x = true) /\
      (~ masked_out f i j -> modest (number hx i j) -> close x (val (number hx i j) * (numeric mh * fz)))) /\
    close (rstep_x s) (numeric dx * (numeric md * fx)) /\ close (rstep_y s) (numeric dy * (numeric md * fx)) /\
    (forall k, hget k d = option_map (convert_dtype float_of) (text_of k (cards_of f))) /\
    (images = false -> im = []) /\
    (images = true -> NoDup (map (fun x => capitalize (i_name x)) (others f)) ->
       Forall2 (fun x '(k, l) => k = capitalize (i_name x) /\ table_is (layer_table l) (i_n2 x) (i_n1 x) (fun i j v => v = number x i j)) (others f) im).
Proof.
  intros float_of lower capitalize en images f hx md mh ux uz dx dy fx fz Hl G Hh Nh Hm Smd Smh Sux Suz Sdx Sdy Mmd Mmh Mdx Mdy Cx Cz.
  unfold get_unit_conversion in Cx, Cz. apply rmap_ok in Cx as (ex & Ex & ->). apply rmap_ok in Cz as (ez & Ez & ->).
  destruct (header_reads float_of en (p_last f) (gf_last _ _ G) (p_full f) [] (concat (map ext_text (p_exts f))) [] (gf_full _ _ G)) as (n1 & d & Hd & Kd).
  destruct (hdus_read float_of en (concat (map full_block (p_full f)) ++ last_block (p_last f)) (p_exts f) (gf_exts _ _ G) (gf_names _ _ G) (gf_pad _ _ G)) as (n2 & ls & Hh2 & F).
  rewrite <- app_assoc in Hh2. cbn [app length] in Hd. fold (file_of f) in Hd, Hh2.
  assert (Kd' : forall k, hget k d = option_map (convert_dtype float_of) (text_of k (cards_of f))) by (intros k; rewrite Kd; unfold cards_of; destruct (text_of k (concat (p_full f) ++ p_last f)); reflexivity).
  assert (It : forall k v, says float_of (cards_of f) k v -> hitem d k = Ok v) by (intros k v (t & T1 & T2); unfold hitem; rewrite Kd', T1; cbn [option_map]; rewrite T2; reflexivity).
  destruct (heights_read float_of f ls hx G F Hh Nh Hm) as (data & Ed & Td).
  destruct (factor_apx lower ux ex md Hl Ex Mmd) as (cx & vx & X1 & X2 & X3 & X4). destruct (factor_apx lower uz ez mh Hl Ez Mmh) as (cz & vz & Z1 & Z2 & Z3 & Z4).
  destruct (hfloat_apx _ _ Z3) as (z & Z5 & Z6). destruct (times_apx dx _ _ Mdx X3 X4) as (wx & sx & W1 & W2 & W3). destruct (times_apx dy _ _ Mdy X3 X4) as (wy & sy & Y1 & Y2 & Y3).
  assert (Lls : length ls = length (p_exts f)) by (clear - F; induction F; cbn [length]; lia).
  assert (Im : exists im, (if images then fits_images capitalize (layer_list (p_exts f) ls) [] else Ok []) = Ok im /\ (images = false -> im = []) /\
    (images = true -> NoDup (map (fun x => capitalize (i_name x)) (others f)) -> Forall2 (fun x '(k, l) => k = capitalize (i_name x) /\ is_layer (ext_of float_of x) l) (others f) im)).
  { destruct images; [|exists []; split; [reflexivity|]; split; [reflexivity|discriminate]]. destruct (images_ok capitalize (p_exts f) ls [] Lls) as (im & E). exists im. split; [exact E|]. split; [discriminate|]. intros _ N.
    destruct (images_are float_of capitalize _ _ F [] N) as (im' & E' & F'). rewrite E in E'. injection E' as ->. exact F'. }
  destruct Im as (im & I1 & I2 & I3).
  exists (Nat.max n1 n2), {| rdata := map (map (fun v => fmul v z)) data; rstep_x := sx; rstep_y := sy |}, im, d. split; [|split; [|split; [|split; [|split; [|split]]]]].
  - intros fuel Hf. unfold read_fits_surface. rewrite (file_start float_of f G). cbn [negb].
    rewrite (read_header_more float_of en n1 _ _ _ Hd fuel) by lia. rewrite (read_hdus_more float_of en n2 _ _ _ Hh2 fuel) by lia. cbn [option_map rbind]. unfold fits_surface. rewrite Ed. cbn [rbind].
    rewrite (It _ _ Smd), (It _ _ Sux). cbn [rbind]. rewrite X1. cbn [rbind]. rewrite X2. cbn [rbind]. rewrite (It _ _ Smh), (It _ _ Suz). cbn [rbind]. rewrite Z1. cbn [rbind]. rewrite Z2. cbn [rbind].
    rewrite (It _ _ Sdx), (It _ _ Sdy). cbn [rbind]. rewrite W1. cbn [rbind]. rewrite Y1. cbn [rbind]. rewrite Z5, W2, Y2. cbn [rbind]. rewrite I1. reflexivity.
  - cbn [rdata]. split; [rewrite map_length; apply Td|]. intros i Hi. destruct (proj2 Td i Hi) as (row & R1 & R2 & R3). exists (map (fun v => fmul v z) row). split; [apply map_nth_error; exact R1|]. split; [rewrite map_length; exact R2|].
    intros j Hj. destruct (R3 j Hj) as (x & X5 & X6 & X7). exists (fmul x z). split; [apply (map_nth_error (fun v => fmul v z)); exact X5|]. split.
    + intros M. rewrite (X6 M). destruct z; reflexivity.
    + intros M [Fn Sn]. rewrite (X7 M). assert (Sn' : sized_r 300 300 (R64 (number hx i j))) by exact Sn.
      pose proof (apx_mult 0 2 3 _ _ _ _ _ _ _ _ (apx_exact _ Fn) Z6 Sn' Z4 eq_refl ltac:(lia) ltac:(lia) ltac:(lia) ltac:(lia)) as A. split; [exact (proj1 A)|exact (apx_err 3 _ _ _ A three)].
  - exact W3.
  - exact Y3.
  - exact Kd'.
  - exact I2.
  - intros Ei N. pose proof (I3 Ei N) as I4. clear - I4 G. assert (O : forall x, In x (others f) -> good_ext float_of x).
    { intros x Hx. apply filter_In in Hx. pose proof (gf_exts _ _ G) as Ge. rewrite Forall_forall in Ge. apply Ge, Hx. }
    revert O. induction I4 as [|x [k l] o im [K L] F IH]; intros O; constructor; [split; [exact K|apply (layer_numbers float_of); [apply O; left; reflexivity|exact L]]|apply IH; intros y Hy; apply O; right; exact Hy].
Qed.
