(** C90: header values, a concrete FITS file, and what the reader gets wrong. *)
From Coq Require Import String Ascii ZArith Lia Bool Reals Lra.
From Coq Require Import List.
From Flocq Require Import IEEE754.BinarySingleNaN IEEE754.Binary IEEE754.Bits.
From Verif Require Import Base ModelBytes ModelUnits ModelSur ModelFormats ModelFits ModelFitsSurface SpecReaders SpecFits ProofBytes PropsFits ProofFits PropsAl3d PropsUnits PropsFitsSurface ExamplesGwy.
Import ListNotations.
Local Open Scope list_scope.
Local Open Scope Z_scope.

(** *** Header values *)
Lemma int_parse_head c s : ~ (48 <= c <= 57) -> int_parse (c :: s) = Err ValueError.
Proof.
  intros H. unfold int_parse. cbn [zs_eqb negb andb forallb]. unfold is_digit. destruct (Z.leb_spec 48 c), (Z.leb_spec c 57); try lia; reflexivity.
Qed.
Lemma lstrip_by_keep p s : (forall c, hd_error s = Some c -> p c = false) -> lstrip_by p s = s.
Proof. destruct s as [|c s]; [reflexivity|]. intros H. cbn [lstrip_by]. rewrite (H c) by reflexivity. reflexivity. Qed.
(** an integer in decimal, and a text in quotes (padded with blanks), as FITS writes them *)
Theorem C90_values : forall (float_of : pystr -> res f64),
  (forall n, 0 <= n -> convert_dtype float_of (dec n) = HInt n /\ convert_dtype float_of (45 :: dec n) = HInt (- n)) /\
  (forall s blanks, s <> [] -> (forall c, hd_error s = Some c \/ hd_error (rev s) = Some c -> c <> 39 /\ c <> 32) -> float_of (39 :: s ++ spaces blanks ++ [39]) = Err ValueError ->
     convert_dtype float_of (39 :: s ++ spaces blanks ++ [39]) = HStr s) /\
  (forall t x, int_text t = Err ValueError -> float_of t = Ok x -> convert_dtype float_of t = HFloat x).
Proof.
  intros float_of. split; [|split].
  - intros n Hn. destruct (dec_spec n Hn) as (E & D & _). unfold convert_dtype. split.
    + assert (I1 : int_text (dec n) = Ok n); [|rewrite I1; reflexivity]. unfold int_text. destruct (dec n) as [|c s] eqn:Ed; [exact E|]. inversion D as [|? ? Hc _]; subst.
      destruct c as [|p|p]; try exact E. do 6 (destruct p as [p|p|]; try exact E); lia.
    + cbn [int_text]. rewrite E. reflexivity.
  - intros s blanks Ns H F. unfold convert_dtype. cbn [int_text]. rewrite int_parse_head by lia. rewrite F. f_equal. cbn [lstrip_by]. change (is_quote 39) with true. cbv iota.
    rewrite lstrip_by_keep.
    + apply rstrip_keep; [apply Forall_app; split; [apply Forall_forall; intros c I; apply repeat_spec in I; subst c; reflexivity|constructor; [reflexivity|constructor]]|].
      intros s' c E. destruct (H c) as [H1 H2]; [right; rewrite E, rev_app_distr; reflexivity|]. unfold is_quote. destruct (Z.eqb_spec c 39), (Z.eqb_spec c 32); try contradiction; reflexivity.
    + intros c E. destruct s as [|a s]; [contradiction|]. cbn [app hd_error] in E. destruct (H c) as [H1 H2]; [left; exact E|]. unfold is_quote. destruct (Z.eqb_spec c 39), (Z.eqb_spec c 32); try contradiction; reflexivity.
  - intros t x E F. unfold convert_dtype. rewrite E, F. reflexivity.
Qed.

(** *** A file: heights of 16 bits in nm, a mask and a photo, different units in x and y *)
Definition key_line (k v : string) : card_line := Entry false (str k) (str v) (8 - length (str k)) 1 1 None.
Definition ext_lines (name bitpix n1 n2 : string) : list card_line :=
  [Entry false (str "XTENSION") (str "'IMAGE   '") 0 1 1 (Some (str " image")); key_line "BITPIX" bitpix; key_line "NAXIS" "2"; key_line "NAXIS1" n1; key_line "NAXIS2" n2; key_line "EXTNAME" name].
Definition heights_ext : image_ext := {| i_lines := ext_lines "'HEIGHTS'" "16" "3" "2"; i_name := str "HEIGHTS"; i_bitpix := 16; i_size := 2; i_n1 := 3; i_n2 := 2; i_data := [3; 232; 7; 208; 0; 0; 255; 255; 0; 5; 0; 6] |}.
Definition mask_ext : image_ext := {| i_lines := ext_lines "'MASK'" "8" "3" "2"; i_name := str "MASK"; i_bitpix := 8; i_size := 1; i_n1 := 3; i_n2 := 2; i_data := [1; 1; 1; 1; 0; 255] |}.
Definition photo_ext (name : string) : image_ext := {| i_lines := ext_lines name "-32" "1" "1"; i_name := rstrip is_quote (lstrip_by is_quote (str name)); i_bitpix := -32; i_size := 4; i_n1 := 1; i_n2 := 1; i_data := [63; 128; 0; 0] |}.
Definition main_lines (unity : string) : list card_line :=
  [Entry false (str "SIMPLE") (str "T") 2 1 4 (Some (str " conforms to FITS = standard")); Remark (str " made = up / by hand"); Empty; key_line "DELTAX" "2"; key_line "DELTAY" "3"; key_line "UNITX" "'mm'"; key_line "UNITY" unity; key_line "UNITZ" "'nm'";
   Entry true (str "UnitMultiplicatorDeltas") (str "1") 0 1 1 None; Entry true (str "UnitMultiplicatorHeights") (str "1000") 1 0 0 None; key_line "OPERATOR" "'Ada L.'"].
Definition example_file (unity : string) (photos : list string) : fits_file := {| p_full := []; p_last := main_lines unity; p_exts := heights_ext :: mask_ext :: map photo_ext photos |}.
Definition shown_fits (r : option (res (raw * list (pystr * hdu) * header))) :=
  option_map (rmap (fun '(s, im, d) => (map (map bits_of_b64) (rdata s), bits_of_b64 (rstep_x s), bits_of_b64 (rstep_y s), map fst im, hget (str "OPERATOR") d))) r.
Definition capital (s : pystr) : pystr := match s with [] => [] | c :: s' => c :: map lower_char s' end.
Definition read_example (unity : string) (photos : list string) := shown_fits (read_fits_surface no_float (map lower_char) capital 10 Utf8 true (file_of (example_file unity photos))).
Definition bz (z : Z) : Z := bits_of_b64 (f64_of_Z z).
Example fits_example : read_example "'mm'" ["'PHOTO'"%string] =
  Some (Ok ([[bz 1000; bz 2000; bz 0]; [bz (-1); bits_of_b64 nan64; bz 6]], bz 2000, bz 3000, [str "Photo"], Some (HStr (str "Ada L.")))).
Proof. vm_compute. reflexivity. Qed.
(** the unit of DELTAY is taken to be UNITX whatever UNITY says *)
Theorem C90_unity_refuted : read_example "'um'" [] = Some (Ok ([[bz 1000; bz 2000; bz 0]; [bz (-1); bits_of_b64 nan64; bz 6]], bz 2000, bz 3000, [], Some (HStr (str "Ada L.")))).
Proof. vm_compute. reflexivity. Qed.
(** of two images whose names differ in case only one is left *)
Theorem C90_image_names_refuted : option_map (rmap (fun '(_, im, _) => im)) (read_example "'mm'" ["'PHOTO'"; "'Photo'"]%string) = Some (Ok [str "Photo"]).
Proof. vm_compute. reflexivity. Qed.
(** the file meets the hypotheses of C90_fits *)
Definition whiteb (c : Z) : bool := (c =? 32) || ((9 <=? c) && (c <=? 13)) || ((28 <=? c) && (c <=? 31)).
Definition endb (o : option Z) : bool := match o with Some c => negb (whiteb c) | None => true end.
Definition plainb (s : pystr) : bool := endb (hd_error s) && endb (hd_error (rev s)) && negb (existsb (Z.eqb 61) s) && negb (existsb (Z.eqb 47) s).
Definition goodb (l : card_line) : bool :=
  Nat.leb (length (line_text l)) 80 && forallb (fun c => (0 <=? c) && (c <? 128)) (line_text l) &&
  match l with
  | Entry h k v _ _ _ _ => negb (zs_eqb k []) && plainb k && plainb v && (if h then negb (existsb (Z.eqb 32) k) else negb (startsb (str "COMMENT") k) && negb (startsb (str "HIERARCH") k))
  | _ => true
  end.
Lemma endb_ok o : endb o = true -> forall c, o = Some c -> ~ white c.
Proof. intros H c ->. cbn [endb] in H. apply negb_true_iff in H. unfold whiteb in H. unfold white. intros W. apply orb_false_iff in H as [H H3]. apply orb_false_iff in H as [H1 H2]. apply Z.eqb_neq in H1. apply andb_false_iff in H2, H3. destruct H2 as [H2|H2], H3 as [H3|H3]; apply Z.leb_gt in H2, H3; lia. Qed.
Lemma notin c s : negb (existsb (Z.eqb c) s) = true -> ~ In c s.
Proof. intros H I. apply negb_true_iff in H. assert (existsb (Z.eqb c) s = true) by (apply existsb_exists; exists c; rewrite Z.eqb_refl; auto). congruence. Qed.
Lemma plainb_ok s : plainb s = true -> plain_text s.
Proof. unfold plainb. rewrite !andb_true_iff. intros [[[H1 H2] H3] H4]. split; [split; apply endb_ok; assumption|]. split; apply notin; assumption. Qed.
Lemma startsb_not p s : negb (startsb p s) = true -> ~ begins p s.
Proof. intros H (t & ->). rewrite startsb_app in H. discriminate H. Qed.
Lemma goodb_ok l : goodb l = true -> good_line l.
Proof.
  unfold goodb. rewrite !andb_true_iff. intros [[H1 H2] H3]. split; [apply Nat.leb_le, H1|]. split.
  - rewrite forallb_forall in H2. apply Forall_forall. intros c I. specialize (H2 c I). apply andb_true_iff in H2 as [A B]. apply Z.leb_le in A. apply Z.ltb_lt in B. lia.
  - destruct l as [h k v a b c r|t|]; try exact Logic.I. rewrite !andb_true_iff in H3. destruct H3 as [[[K Pk] Pv] Hh]. split; [intros ->; discriminate K|]. split; [apply plainb_ok, Pk|]. split; [apply plainb_ok, Pv|].
    destruct h; [apply notin, Hh|]. apply andb_true_iff in Hh as [A B]. split; apply startsb_not; assumption.
Qed.
Lemma goods_ok ls : forallb goodb ls = true -> Forall good_line ls.
Proof. rewrite forallb_forall. intros H. apply Forall_forall. intros l I. apply goodb_ok, H, I. Qed.
Ltac sayb := eexists; split; [vm_compute; reflexivity|vm_compute; reflexivity].
Lemma photo_good name t : goodb (key_line "EXTNAME" name) = true -> t = rstrip is_quote (lstrip_by is_quote (str name)) -> int_text (str name) = Err ValueError -> good_ext no_float (photo_ext name).
Proof.
  intros G -> I1. assert (Gl : good_last (i_lines (photo_ext name))) by (split; [cbn [i_lines photo_ext ext_lines length]; lia|apply goods_ok; cbn [photo_ext i_lines ext_lines forallb]; rewrite G; vm_compute; reflexivity]).
  constructor; cbn [photo_ext i_lines i_name i_bitpix i_size i_n1 i_n2 i_data].
  - exact Gl.
  - repeat eexists.
  - sayb.
  - sayb.
  - sayb.
  - sayb.
  - exists (str name). split; [reflexivity|]. unfold convert_dtype. rewrite I1. reflexivity.
  - reflexivity.
  - reflexivity.
Qed.
Theorem C90_example : good_file no_float (example_file "'um'" ["'PHOTO'"%string]).
Proof.
  constructor; cbn [example_file p_full p_last p_exts cards_of].
  - constructor.
  - split; [cbn [main_lines length]; lia|apply goods_ok; vm_compute; reflexivity].
  - repeat eexists.
  - constructor; [|constructor; [|constructor; [|constructor]]].
    + constructor; [split; [vm_compute; lia|apply goods_ok; vm_compute; reflexivity]|repeat eexists|sayb|sayb|sayb|sayb|sayb|reflexivity|reflexivity].
    + constructor; [split; [vm_compute; lia|apply goods_ok; vm_compute; reflexivity]|repeat eexists|sayb|sayb|sayb|sayb|sayb|reflexivity|reflexivity].
    + eapply photo_good; [vm_compute; reflexivity|reflexivity|vm_compute; reflexivity].
  - vm_compute. repeat constructor; intros H; repeat (destruct H as [H|H]; [discriminate H|]); destruct H.
  - intros x [<-|[<-|[<-|[]]]]; vm_compute; discriminate.
Qed.

(** *** Cards the parser cannot cope with: they are legal, but the file is refused, or the value is cut off *)
Definition with_card (t : string) : bytes := ljust 2880 (lines_text (main_lines "'um'") ++ ljust 80 (str t) ++ ljust 80 (str "END")) ++ concat (map ext_text (p_exts (example_file "'um'" []))).
Definition read_with (t k : string) := option_map (rmap (fun '(_, _, d) => hget (str k) d)) (read_fits_surface no_float (map lower_char) capital 10 Utf8 false (with_card t)).
Theorem C90_cards_refuted :
  read_with "HISTORY measured twice" "HISTORY" = Some (Err ValueError) /\
  read_with "MACRO   = 'a=b'" "MACRO" = Some (Err ValueError) /\
  read_with "SLOPE   = 'um/mm'" "SLOPE" = Some (Ok (Some (HStr (str "um")))) /\
  read_with "AUTHOR  = 'O''Neill'" "AUTHOR" = Some (Ok (Some (HStr (str "O''Neill")))).
Proof. vm_compute. auto. Qed.
