(** C98: ASCII SDF files of other programs. *)
From Coq Require Import String Ascii ZArith Bool Lia.
From Coq Require Import List.
From Verif Require Import Base ModelBytes ModelUnits ModelSur ModelFormats ModelGwy ModelSdfText ProofBytes ProofFlat PropsTmd PropsSdf PropsAl3d ProofSdfText.
From Verif Require ModelZip PropsX3p PropsTable PropsFits PropsMagic.
Import ListNotations.
Local Open Scope Z_scope.

(** *** What such a file is *)
(** one line of the header: name = value, blanks allowed around both, LF or CRLF *)
Record hline := mkLine { h_indent : pystr; h_name : string; h_before : pystr; h_after : pystr; h_value : pystr; h_trail : pystr; h_crlf : bool }.
Definition line_body (l : hline) : pystr := h_indent l ++ str (h_name l) ++ h_before l ++ [61] ++ h_after l ++ h_value l ++ h_trail l.
Definition line_text (l : hline) : pystr := line_body l ++ (if h_crlf l then [13; 10] else [10]).
(** a point: a number or BAD, followed by white space *)
Definition point : Type := option pystr * pystr.
Definition point_text (p : point) : pystr := (match fst p with Some t => t | None => str "BAD" end) ++ snd p.
Definition file (pre : pystr) (hs : list hline) (w : pystr) (ps : list point) (trailer tail : pystr) : bytes :=
  str "aISO-1.0" ++ pre ++ concat (map line_text hs) ++ [42] ++ (w ++ concat (map point_text ps)) ++ [42] ++ trailer ++ [42] ++ tail.
(** printable ASCII other than = and the section mark *)
Definition value_char (c : Z) : Prop := 32 <= c <= 126 /\ c <> 61 /\ c <> 42.
Definition ok_line (l : hline) : Prop :=
  blank (h_indent l) /\ blank (h_before l) /\ blank (h_after l) /\ blank (h_trail l) /\ In (h_name l) sdf_names /\ Forall value_char (h_value l) /\ trimmed (h_value l).
Definition ok_trailer (t : pystr) : Prop := Forall (fun c => 0 <= c < 128 /\ c <> 42) t.
(** what follows a number *)
Definition ends (r : pystr) : Prop := match r with [] => True | c :: _ => c = 32 \/ 9 <= c <= 13 end.

Section Props.
Variable to_float : pystr -> res f64.
Variable strtod : pystr -> option (f64 * pystr).
(** the text t is the number v for strtod *)
Definition denotes (t : pystr) (v : f64) : Prop :=
  t <> [] /\ Forall (fun c => 33 <= c <= 126 /\ c <> 42 /\ c <> 60 /\ c <> 66) t /\ forall r, ends r -> strtod (t ++ r) = Some (v, r).
Definition ok_point (p : point) : Prop :=
  (exists c r, snd p = c :: r) /\ white (snd p) /\ match fst p with Some t => exists v, denotes t v | None => True end.
(** the meaning of a header line *)
Inductive means : string -> pystr -> mvalue -> Prop :=
| means_text v : means "ManufacID" v (MStr v)
| means_date n d : In n ["CreateDate"; "ModDate"]%string -> valid_date d -> means n (date_text d) (MDate d)
| means_int n k : In n ["NumPoints"; "NumProfiles"; "Compression"; "DataType"; "CheckType"]%string -> 0 <= k -> means n (dec k) (MInt k)
| means_float n v x : In n ["Xscale"; "Yscale"; "Zscale"; "Zresolution"]%string -> to_float v = Ok x -> means n v (MFloat x).
Definition says (hs : list hline) (n : string) (v : mvalue) : Prop := exists l, In l hs /\ h_name l = n /\ means n (h_value l) v.
(** the height of a point, given zscale: not measured, or number * zscale * 10^6 *)
Definition height (zs : f64) (p : point) (x : f64) : Prop :=
  match fst p with None => isnan x = true | Some t => forall v, denotes t v -> x = fmul v (fmul (pow10 6) zs) end.

(** *** The points *)
Hypothesis nan_ok : forall r, ends r -> exists x, isnan x = true /\ strtod (str "NAN" ++ r) = Some (x, r).
Definition point_raw (p : point) (x : f64) : Prop := match fst p with None => isnan x = true | Some t => denotes t x end.
Definition point_nan (p : point) : pystr := (match fst p with Some t => t | None => str "NAN" end) ++ snd p.
Lemma white_no c w : white w -> ~ (c = 32 \/ 9 <= c <= 13) -> ~ In c w.
Proof. intros H N Hi. unfold white in H. rewrite Forall_forall in H. exact (N (H c Hi)). Qed.
Lemma denotes_no t v c : denotes t v -> c = 42 \/ c = 60 \/ c = 66 -> ~ In c t.
Proof. intros (_ & H & _) Hc Hi. rewrite Forall_forall in H. specialize (H c Hi). lia. Qed.
Lemma replace_points w ps rest : white w -> Forall ok_point ps ->
  replace3 66 65 68 (str "NAN") (w ++ concat (map point_text ps) ++ rest) = w ++ concat (map point_nan ps) ++ replace3 66 65 68 (str "NAN") rest.
Proof.
  intros Hw H. rewrite replace_app by (apply white_no; [exact Hw|lia]). f_equal. induction H as [|p ps (_ & Hp & Hv) _ IH]; [reflexivity|].
  cbn [map concat]. rewrite <- !app_assoc. destruct p as [[t|] s]; unfold point_text, point_nan in *; cbn [fst snd] in *; rewrite <- !app_assoc.
  - destruct Hv as [v Hv]. rewrite replace_app by (apply (denotes_no t v); auto). f_equal. rewrite replace_app by (apply white_no; [exact Hp|lia]). f_equal. exact IH.
  - rewrite replace_bad. f_equal. rewrite replace_app by (apply white_no; [exact Hp|lia]). f_equal. exact IH.
Qed.
Lemma c_lstrip_token t s : t <> [] -> Forall (fun c => 33 <= c <= 126) t -> c_lstrip (t ++ s) = t ++ s.
Proof.
  intros H0 H. destruct H as [|c t Hc _]; [contradiction|]. cbn [app c_lstrip]. unfold c_space. destruct (Z.eqb_spec c 32); [lia|]. destruct (Z.leb_spec 9 c), (Z.leb_spec c 13); cbn; try reflexivity; lia.
Qed.
(** nothing more: no text, or text that is not a number *)
Definition no_number (junk : pystr) : Prop := strtod (c_lstrip junk) = None.
Lemma fromstring_points ps junk : Forall ok_point ps -> no_number junk -> forall w fuel, white w -> (length ps < fuel)%nat ->
  exists vs, fromstring strtod fuel (w ++ concat (map point_nan ps) ++ junk) = vs /\ Forall2 point_raw ps vs.
Proof.
  intros H Hj. induction H as [|p ps ((c & r & Es) & Hp & Hv) Hps IH]; intros w fuel Hw Hf; (destruct fuel as [|f]; [lia|]); cbn [fromstring].
  - cbn [map concat app]. rewrite c_lstrip_white by exact Hw. unfold no_number in Hj. rewrite Hj. exists []. split; [reflexivity|constructor].
  - cbn [map concat]. rewrite c_lstrip_white by exact Hw. destruct p as [tok s]. cbn [fst snd] in *. rewrite <- app_assoc.
    assert (Hc : c = 32 \/ 9 <= c <= 13) by (unfold white in Hp; rewrite Es in Hp; inversion Hp; assumption).
    destruct (IH s f Hp ltac:(cbn [length] in Hf; lia)) as (vs & E & F).
    assert (X : exists x, strtod (c_lstrip (point_nan (tok, s) ++ concat (map point_nan ps) ++ junk)) = Some (x, s ++ concat (map point_nan ps) ++ junk) /\ point_raw (tok, s) x).
    { unfold point_nan at 1. cbn [fst snd]. rewrite <- app_assoc. destruct tok as [t|].
      - destruct Hv as [v (H0 & H1 & H2)]. exists v. rewrite c_lstrip_token; [|exact H0|eapply Forall_impl; [|exact H1]; cbn; intros; lia]. split; [|split; auto].
        apply H2. rewrite Es. exact Hc.
      - destruct (nan_ok (s ++ concat (map point_nan ps) ++ junk)) as (x & Hx & E1); [rewrite Es; exact Hc|]. exists x. split; [exact E1|exact Hx]. }
    destruct X as (x & E1 & Hx). rewrite E1. exists (x :: vs). split; [|constructor; assumption]. f_equal.
    subst vs. rewrite Es at 1. cbn [app]. destruct (white_space c Hc) as [_ ->]. reflexivity.
Qed.
Lemma isnan_mul x y : isnan x = true -> isnan (fmul x y) = true.
Proof. destruct x, y; intros X; try discriminate; reflexivity. Qed.
Lemma heights_points zs ps vs : Forall ok_point ps -> Forall2 point_raw ps vs -> Forall2 (height zs) ps (map (fun x => fmul x (fmul (pow10 6) zs)) vs).
Proof.
  intros Hps F. induction F as [|p v ps vs Hp F IH]; [constructor|]. inversion Hps; subst. cbn [map]. constructor; [|apply IH; assumption]. destruct p as [[t|] s]; unfold point_raw, height in *; cbn [fst] in *.
  - intros v' (_ & _ & D'). destruct Hp as (_ & _ & D). specialize (D [] Logic.I). specialize (D' [] Logic.I). rewrite D' in D. congruence.
  - apply isnan_mul. exact Hp.
Qed.
Lemma points_length ps : Forall ok_point ps -> (length ps <= length (concat (map point_nan ps)))%nat.
Proof.
  induction 1 as [|p ps ((c & r & Es) & _ & _) _ IH]; [reflexivity|]. cbn [map concat length]. rewrite app_length. unfold point_nan at 1. rewrite app_length, Es. cbn [length]. lia.
Qed.
Lemma points_no60 w ps : white w -> Forall ok_point ps -> ~ In 60 (w ++ concat (map point_nan ps)).
Proof.
  intros Hw H Hi. apply in_app_iff in Hi. destruct Hi as [Hi|Hi]; [exact (white_no 60 w Hw ltac:(lia) Hi)|]. apply in_concat in Hi. destruct Hi as (s & Hs & Hi).
  apply in_map_iff in Hs. destruct Hs as (p & <- & Hp). rewrite Forall_forall in H. destruct (H p Hp) as (_ & Hs & Hv). unfold point_nan in Hi. apply in_app_iff in Hi. destruct Hi as [Hi|Hi].
  - destruct (fst p) as [t|]; [destruct Hv as [v Hv]; exact (denotes_no t v 60 Hv ltac:(auto) Hi)|]. cbn in Hi. intuition lia.
  - exact (white_no 60 _ Hs ltac:(lia) Hi).
Qed.
Lemma concat_maps {A B} (f : A -> B) (g : list (list A)) : concat (map (map f) g) = map f (concat g).
Proof. symmetry. apply concat_map. Qed.
(** reading the points; junk after them is ignored.  ry, rx: the size that results *)
Lemma read_points_gen d w ps junk nx ny rx ry xs ys zs : white w -> Forall ok_point ps -> no_number (replace3 66 65 68 (str "NAN") junk) -> ~ In 60 (replace3 66 65 68 (str "NAN") junk) ->
  item_int d "NumPoints" = Ok nx -> item_int d "NumProfiles" = Ok ny -> item_float d "Xscale" = Ok xs -> item_float d "Yscale" = Ok ys -> item_float d "Zscale" = Ok zs ->
  (forall vs : list f64, length vs = length ps -> reshape_np ny nx vs = reshape ry rx vs) -> length ps = (ry * rx)%nat ->
  exists s, read_points strtod d (w ++ concat (map point_text ps) ++ junk) = Ok (s, d) /\ Forall2 (height zs) ps (concat (rdata s)) /\ length (rdata s) = ry /\
    (forall r, In r (rdata s) -> length r = rx) /\ rstep_x s = fmul xs (pow10 6) /\ rstep_y s = fmul ys (pow10 6).
Proof.
  intros Hw Hps Hj Hj60 Ex Ey EX EY EZ Hr Hn. unfold read_points. rewrite (replace_points w ps junk Hw Hps).
  set (text := w ++ concat (map point_nan ps) ++ replace3 66 65 68 (str "NAN") junk). rewrite Ex, Ey. cbn [rbind].
  destruct (fromstring_points ps _ Hps Hj w (S (length text)) Hw) as (vs & Ev & F).
  { pose proof (points_length ps Hps). unfold text. rewrite !app_length. lia. }
  fold text in Ev. rewrite Ev. assert (L0 : length vs = length ps) by (clear -F; induction F; cbn; congruence).
  rewrite (Hr vs L0). assert (L : length vs = (ry * rx)%nat) by congruence.
  unfold reshape. rewrite (proj2 (Nat.eqb_eq _ _) L). cbn [rbind]. rewrite EX, EY, EZ. cbn [rbind].
  rewrite findall_none. 2:{ unfold text. rewrite app_assoc. intros X. apply in_app_iff in X. destruct X as [X|X]; [exact (points_no60 w ps Hw Hps X)|exact (Hj60 X)]. }
  destruct (PropsFits.rows_of_spec rx ry vs L) as (R1 & R2 & R3). eexists. split; [reflexivity|]. cbn [rdata rstep_x rstep_y].
  split; [|split; [|split; [|split; reflexivity]]].
  - rewrite concat_maps. exact (eq_ind_r (fun l => Forall2 (height zs) ps (map (fun x => fmul x (fmul (pow10 6) zs)) l)) (heights_points zs ps vs Hps F) R2).
  - rewrite map_length. exact R1.
  - intros r Hr'. apply in_map_iff in Hr'. destruct Hr' as (r' & <- & Hr'). rewrite map_length. exact (R3 r' Hr').
Qed.
Lemma read_points_ok d w ps junk nx ny xs ys zs : white w -> Forall ok_point ps -> no_number (replace3 66 65 68 (str "NAN") junk) -> ~ In 60 (replace3 66 65 68 (str "NAN") junk) ->
  item_int d "NumPoints" = Ok nx -> item_int d "NumProfiles" = Ok ny -> item_float d "Xscale" = Ok xs -> item_float d "Yscale" = Ok ys -> item_float d "Zscale" = Ok zs ->
  0 <= nx -> 0 <= ny -> zlen ps = ny * nx ->
  exists s, read_points strtod d (w ++ concat (map point_text ps) ++ junk) = Ok (s, d) /\ Forall2 (height zs) ps (concat (rdata s)) /\ zlen (rdata s) = ny /\
    (forall r, In r (rdata s) -> zlen r = nx) /\ rstep_x s = fmul xs (pow10 6) /\ rstep_y s = fmul ys (pow10 6).
Proof.
  intros Hw Hps Hj Hj60 Ex Ey EX EY EZ Hx Hy Hn.
  destruct (read_points_gen d w ps junk nx ny (Z.to_nat nx) (Z.to_nat ny) xs ys zs) as (s & E & F & R1 & R2 & R3 & R4); try assumption.
  - intros vs _. unfold reshape_np. destruct (Z.ltb_spec ny 0); [lia|]. destruct (Z.ltb_spec nx 0); [lia|]. reflexivity.
  - unfold zlen in Hn. rewrite <- Z2Nat.inj_mul by assumption. lia.
  - exists s. split; [exact E|]. split; [exact F|]. unfold zlen. split; [lia|]. split; [intros r Hr; rewrite (R2 r Hr); lia|]. split; assumption.
Qed.

(** *** The header *)
Definition kind (n : string) : option htype := gget ascii_types (str n).
Definition stored (l : hline) : mvalue :=
  match kind (h_name l) with Some t => match convert to_float t (h_value l) with Ok v => v | Err _ => MStr [] end | None => MStr [] end.
Definition stored_of (n : string) (s : pystr) (v : mvalue) : mvalue := match v with MDate _ => MStr s | _ => v end.
Lemma means_convert n s v : means n s v -> exists t, kind n = Some t /\ convert to_float t s = Ok (stored_of n s v).
Proof.
  destruct 1 as [s|n d Hn Hd|n k Hn Hk|n s x Hn Hx].
  - exists TStr. split; reflexivity.
  - exists TStr. split; [destruct Hn as [<-|[<-|[]]]; reflexivity|reflexivity].
  - exists TInt. split; [repeat (destruct Hn as [<-|Hn]; [reflexivity|]); destruct Hn|]. cbn [convert stored_of]. rewrite py_int_dec by exact Hk. reflexivity.
  - exists TFloat. split; [repeat (destruct Hn as [<-|Hn]; [reflexivity|]); destruct Hn|]. cbn [convert stored_of]. rewrite Hx. reflexivity.
Qed.
Lemma stored_means l v : means (h_name l) (h_value l) v -> stored l = stored_of (h_name l) (h_value l) v.
Proof. intros H. destruct (means_convert _ _ _ H) as (t & E1 & E2). unfold stored. rewrite E1, E2. reflexivity. Qed.
Lemma name_chars n : In n sdf_names -> Forall (fun c => 65 <= c <= 122) (str n) /\ str n <> [].
Proof. intros H. unfold sdf_names in H. repeat (destruct H as [<-|H]; [split; [repeat constructor; cbn; lia|discriminate]|]). destruct H. Qed.
Lemma alpha_space c : 65 <= c <= 122 -> is_space c = false.
Proof. intros H. unfold is_space. destruct (Z.eqb_spec c 32); [lia|]. destruct (Z.leb_spec 9 c), (Z.leb_spec c 13), (Z.leb_spec 28 c), (Z.leb_spec c 31); cbn; try reflexivity; lia. Qed.
Lemma alpha_trimmed s : Forall (fun c => 65 <= c <= 122) s -> trimmed s.
Proof.
  intros H. rewrite Forall_forall in H. split.
  - destruct s as [|c s]; [exact Logic.I|]. apply alpha_space, H. left. reflexivity.
  - destruct (rev s) as [|c r] eqn:E; [exact Logic.I|]. apply alpha_space, H. apply in_rev. rewrite E. left. reflexivity.
Qed.
Lemma blank_no c w : blank w -> c <> 32 -> c <> 9 -> ~ In c w.
Proof. intros H A B Hi. unfold blank in H. rewrite Forall_forall in H. destruct (H c Hi); contradiction. Qed.
(** characters of a line *)
Lemma body_char l c : ok_line l -> In c (line_body l) -> (c = 32 \/ c = 9) \/ (65 <= c <= 122) \/ c = 61 \/ (In c (h_value l) /\ value_char c).
Proof.
  intros (H1 & H2 & H3 & H4 & H5 & H6 & _) Hi. unfold line_body in Hi. unfold blank in *. rewrite Forall_forall in H1, H2, H3, H4, H6.
  destruct (name_chars _ H5) as [Hn _]. rewrite Forall_forall in Hn.
  rewrite !in_app_iff in Hi. destruct Hi as [Hi|[Hi|[Hi|[Hi|[Hi|[Hi|Hi]]]]]]; auto.
  - right. right. left. destruct Hi as [<-|[]]. reflexivity.
  - right. right. right. auto.
Qed.
Lemma body_plain l c : ok_line l -> In c (line_body l) -> is_linebreak c = false /\ c <> 42 /\ 0 <= c < 128.
Proof.
  intros Hl Hi. assert (H : c <> 42 /\ (c = 9 \/ 32 <= c <= 126)).
  { destruct (body_char l c Hl Hi) as [?|[?|[?|(? & ? & ? & ?)]]]; lia. }
  destruct H as [H1 H2]. split; [|split; [exact H1|lia]]. unfold is_linebreak.
  destruct (Z.leb_spec 10 c), (Z.leb_spec c 13), (Z.leb_spec 28 c), (Z.leb_spec c 30); cbn; auto; lia.
Qed.
Definition convertible (l : hline) : Prop := exists t v, kind (h_name l) = Some t /\ convert to_float t (h_value l) = Ok v.
Lemma means_convertible l v : means (h_name l) (h_value l) v -> convertible l.
Proof. intros H. destruct (means_convert _ _ _ H) as (t & E1 & E2). exists t. eauto. Qed.
Lemma header_line_ok d l : ok_line l -> convertible l -> header_line to_float d (line_body l) = Ok (gput d (str (h_name l)) (stored l)).
Proof.
  intros (H1 & H2 & H3 & H4 & H5 & H6 & H7) Hm. destruct (name_chars _ H5) as [Hn _]. unfold header_line, line_body.
  replace (h_indent l ++ str (h_name l) ++ h_before l ++ [61] ++ h_after l ++ h_value l ++ h_trail l)
    with ((h_indent l ++ str (h_name l) ++ h_before l) ++ 61 :: (h_after l ++ h_value l ++ h_trail l)) by (rewrite <- !app_assoc; reflexivity).
  rewrite split_on_app, split_on_none.
  - rewrite !strip_white; try (apply blank_white; assumption); try assumption; [|apply alpha_trimmed; exact Hn].
    destruct Hm as (t & v & E1 & E2). unfold stored. rewrite E1. unfold kind in E1. rewrite E1, E2. reflexivity.
  - intros c Hc ->. rewrite !in_app_iff in Hc. destruct Hc as [Hc|[Hc|Hc]].
    + exact (blank_no 61 _ H3 ltac:(lia) ltac:(lia) Hc).
    + rewrite Forall_forall in H6. destruct (H6 _ Hc) as (_ & X & _). lia.
    + exact (blank_no 61 _ H4 ltac:(lia) ltac:(lia) Hc).
  - intros c Hc ->. rewrite !in_app_iff in Hc. destruct Hc as [Hc|[Hc|Hc]].
    + exact (blank_no 61 _ H1 ltac:(lia) ltac:(lia) Hc).
    + rewrite Forall_forall in Hn. specialize (Hn _ Hc). cbn in Hn. lia.
    + exact (blank_no 61 _ H2 ltac:(lia) ltac:(lia) Hc).
Qed.
Definition entries (hs : list hline) : mdict := map (fun l => (str (h_name l), stored l)) hs.
Lemma header_lines_more hs extra : Forall ok_line hs -> (forall l, In l hs -> convertible l) ->
  forall d, header_lines to_float d (splitlines_aux (concat (map line_text hs) ++ extra)) = header_lines to_float (ModelZip.update d (entries hs)) (splitlines_aux extra).
Proof.
  intros H Hm. induction H as [|l hs Hl _ IH]; intros d; [reflexivity|]. cbn [map concat].
  assert (E : splitlines_aux ((line_text l ++ concat (map line_text hs)) ++ extra) = line_body l :: splitlines_aux (concat (map line_text hs) ++ extra)).
  { unfold line_text at 1. rewrite <- !app_assoc. destruct (h_crlf l); [apply splitlines_crlf|apply splitlines_line]; intros c Hc; apply (body_plain l c Hl Hc). }
  rewrite E. cbn [header_lines]. rewrite (header_line_ok d l Hl (Hm l (or_introl eq_refl))). cbn [rbind].
  rewrite IH by (intros l' Hl'; apply Hm; right; exact Hl'). reflexivity.
Qed.
Lemma header_lines_ok hs : Forall ok_line hs -> (forall l, In l hs -> convertible l) ->
  forall d, header_lines to_float d (splitlines_aux (concat (map line_text hs))) = Ok (ModelZip.update d (entries hs)).
Proof. intros H Hm d. pose proof (header_lines_more hs [] H Hm d) as E. rewrite app_nil_r in E. rewrite E. reflexivity. Qed.
(** removing the indentation of the first line, as lstrip does *)
Definition unindent (l : hline) : hline := mkLine [] (h_name l) (h_before l) (h_after l) (h_value l) (h_trail l) (h_crlf l).
Lemma lstrip_lines pre l hs rest : white pre -> ok_line l ->
  lstrip (pre ++ concat (map line_text (l :: hs)) ++ rest) = concat (map line_text (unindent l :: hs)) ++ rest.
Proof.
  intros Hp (H1 & _ & _ & _ & H5 & _). rewrite lstrip_white by exact Hp. cbn [map concat]. unfold line_text at 1, line_body. rewrite <- !app_assoc.
  rewrite lstrip_white by (apply blank_white; exact H1). destruct (name_chars _ H5) as [Hn H0]. unfold line_text at 2, line_body, unindent. cbn [h_indent h_name h_before h_after h_value h_trail h_crlf app].
  rewrite <- !app_assoc. destruct (str (h_name l)) as [|c t] eqn:E; [contradiction|]. cbn [app]. rewrite lstrip_head by (apply alpha_space; inversion Hn; assumption). rewrite <- ?app_assoc. cbn [app]. rewrite <- ?app_assoc. reflexivity.
Qed.
Lemma unindent_ok l : ok_line l -> ok_line (unindent l).
Proof. intros (H1 & H). split; [constructor|exact H]. Qed.
Lemma lines_char hs c : Forall ok_line hs -> In c (concat (map line_text hs)) -> c <> 42 /\ 0 <= c < 128.
Proof.
  intros H Hi. apply in_concat in Hi. destruct Hi as (s & Hs & Hi). apply in_map_iff in Hs. destruct Hs as (l & <- & Hl). rewrite Forall_forall in H.
  unfold line_text in Hi. apply in_app_iff in Hi. destruct Hi as [Hi|Hi]; [apply (body_plain l c (H l Hl) Hi)|]. destruct (h_crlf l); cbn in Hi; intuition lia.
Qed.
Lemma points_char ps c : Forall ok_point ps -> In c (concat (map point_text ps)) -> c <> 42 /\ 0 <= c < 128.
Proof.
  intros H Hi. apply in_concat in Hi. destruct Hi as (s & Hs & Hi). apply in_map_iff in Hs. destruct Hs as (p & <- & Hp). rewrite Forall_forall in H.
  destruct (H p Hp) as (_ & Hw & Hv). unfold point_text in Hi. apply in_app_iff in Hi. destruct Hi as [Hi|Hi].
  - destruct (fst p) as [t|]; [|cbn in Hi; intuition lia]. destruct Hv as (v & _ & Hv & _). rewrite Forall_forall in Hv. specialize (Hv c Hi). lia.
  - unfold white in Hw. rewrite Forall_forall in Hw. specialize (Hw c Hi). lia.
Qed.
Lemma white_char w c : white w -> In c w -> c <> 42 /\ 0 <= c < 128.
Proof. intros H Hi. unfold white in H. rewrite Forall_forall in H. specialize (H c Hi). lia. Qed.

(** the reader after the sections are separated *)
Definition read_sections (header data : pystr) : res (raw * mdict) :=
  rbind (header_lines to_float [] (splitlines_aux (lstrip header))) (fun d =>
  rbind (item_int d "DataType") (fun dt =>
  match sdf_item dt with
  | None => Err CorruptedFileError
  | Some _ => rbind (parse_date d "CreateDate") (fun d1 => rbind (parse_date d1 "ModDate") (fun d2 => read_points strtod d2 data))
  end)).
(** any data section *)
Definition any_file (pre : pystr) (hs : list hline) (data trailer tail : pystr) : bytes :=
  str "aISO-1.0" ++ pre ++ concat (map line_text hs) ++ [42] ++ data ++ [42] ++ trailer ++ [42] ++ tail.
Definition any_text (pre : pystr) (hs : list hline) (extra data trailer tail : pystr) : bytes :=
  str "aISO-1.0" ++ pre ++ concat (map line_text hs) ++ extra ++ [42] ++ data ++ [42] ++ trailer ++ [42] ++ tail.
Lemma load_text pre l hs extra data trailer tail : white pre -> Forall ok_line (l :: hs) -> ok_trailer extra -> ok_trailer data -> ok_trailer trailer -> white tail ->
  load_ascii to_float strtod (any_text pre (l :: hs) extra data trailer tail) = read_sections (concat (map line_text (unindent l :: hs)) ++ extra) data.
Proof.
  intros Hp Hl Hx Hd Ht He. unfold load_ascii, any_text. change (open_rb ?b) with (at_ [] b).
  pose proof (fread_at [] (str "aISO-1.0") (pre ++ concat (map line_text (l :: hs)) ++ extra ++ [42] ++ data ++ [42] ++ trailer ++ [42] ++ tail)) as F8.
  change (length (str "aISO-1.0")) with 8%nat in F8. rewrite F8. clear F8. change (zs_eqb (str "aISO-1.0") sdf_magic_ascii) with true. cbv iota.
  unfold read_ascii. rewrite fread_all_at. inversion Hl as [|? ? Hl1 Hl2]; subst.
  assert (Hu : Forall ok_line (unindent l :: hs)) by (constructor; [apply unindent_ok; exact Hl1|exact Hl2]).
  unfold ok_trailer in *. rewrite Forall_forall in Hd, Ht, Hx.
  assert (A : forallb (fun c => (0 <=? c) && (c <? 128)) (pre ++ concat (map line_text (l :: hs)) ++ extra ++ [42] ++ data ++ [42] ++ trailer ++ [42] ++ tail) = true).
  { apply forallb_forall. intros c Hc. assert (Hb : 0 <= c < 128).
    { rewrite !in_app_iff in Hc. destruct Hc as [Hc|[Hc|[Hc|[Hc|[Hc|[Hc|[Hc|[Hc|Hc]]]]]]]]; try (destruct Hc as [<-|[]]; lia).
      - apply (white_char pre c Hp Hc).
      - apply (lines_char _ c Hl Hc).
      - apply (Hx c Hc).
      - apply (Hd c Hc).
      - apply (Ht c Hc).
      - apply (white_char tail c He Hc). }
    destruct (Z.leb_spec 0 c); [|lia]. destruct (Z.ltb_spec c 128); [|lia]. reflexivity. }
  rewrite A. cbn [negb]. rewrite (lstrip_lines pre l hs _ Hp Hl1). cbn [app]. rewrite app_assoc.
  rewrite split_on_app by (intros c Hc; apply in_app_iff in Hc; destruct Hc as [Hc|Hc]; [apply (lines_char _ c Hu Hc)|apply (Hx c Hc)]). rewrite split_on_app by (intros c Hc; apply (Hd c Hc)).
  rewrite split_on_app by (intros c Hc; apply (Ht c Hc)). rewrite split_on_none by (intros c Hc; apply (white_char tail c He Hc)).
  assert (Es : strip tail = []).
  { rewrite <- (app_nil_r tail). change (tail ++ []) with (tail ++ [] ++ []). apply strip_white; [exact He|constructor|split; exact Logic.I]. }
  rewrite Es. reflexivity.
Qed.
Lemma load_sections pre l hs data trailer tail : white pre -> Forall ok_line (l :: hs) -> ok_trailer data -> ok_trailer trailer -> white tail ->
  load_ascii to_float strtod (any_file pre (l :: hs) data trailer tail) = read_sections (concat (map line_text (unindent l :: hs))) data.
Proof.
  intros Hp Hl Hd Ht He. pose proof (load_text pre l hs [] data trailer tail Hp Hl ltac:(constructor) Hd Ht He) as E. rewrite app_nil_r in E. exact E.
Qed.
Lemma lstrip_unindented_more l hs extra : ok_line l -> lstrip (concat (map line_text (unindent l :: hs)) ++ extra) = concat (map line_text (unindent l :: hs)) ++ extra.
Proof. intros Hl. exact (lstrip_lines [] (unindent l) hs extra ltac:(constructor) (unindent_ok l Hl)). Qed.
Lemma lstrip_unindented l hs : ok_line l -> lstrip (concat (map line_text (unindent l :: hs))) = concat (map line_text (unindent l :: hs)).
Proof.
  intros Hl. pose proof (lstrip_lines [] (unindent l) hs [] ltac:(constructor) (unindent_ok l Hl)) as E. cbn [app] in E. rewrite !app_nil_r in E. exact E.
Qed.
Lemma entries_unindent l hs : entries (unindent l :: hs) = entries (l :: hs).
Proof. reflexivity. Qed.

(** *** What the metadata hold *)
Lemma get_entry hs l : NoDup (map h_name hs) -> In l hs -> gget (entries hs) (str (h_name l)) = Some (stored l).
Proof.
  intros Hn Hl. apply PropsX3p.gget_in.
  - unfold entries. rewrite map_map. cbn [fst]. rewrite <- (map_map h_name str). apply FinFun.Injective_map_NoDup; [intros a b; apply PropsTable.str_inj|exact Hn].
  - unfold entries. apply in_map_iff. exists l. auto.
Qed.
Lemma entries_keys hs : NoDup (map h_name hs) -> NoDup (map fst (entries hs)).
Proof. intros Hn. unfold entries. rewrite map_map. cbn [fst]. rewrite <- (map_map h_name str). apply FinFun.Injective_map_NoDup; [intros a b; apply PropsTable.str_inj|exact Hn]. Qed.
Lemma update_entries hs k : NoDup (map h_name hs) -> gget (ModelZip.update [] (entries hs)) k = gget (entries hs) k.
Proof. intros Hn. rewrite update_get by (apply entries_keys; exact Hn). destruct (gget (entries hs) k); reflexivity. Qed.
Lemma gget_some_in {A} (d : list (pystr * A)) k v : gget d k = Some v -> In k (map fst d).
Proof. induction d as [|[n x] d IH]; cbn; [discriminate|]. destruct (zs_eqb k n) eqn:E; intros H; [left; symmetry; apply zs_eqb_eq; exact E|right; apply IH; exact H]. Qed.
(** the dates are parsed, the rest stays *)
Lemma parse_date_ok hs d n : (n = "CreateDate" \/ n = "ModDate")%string -> NoDup (map h_name hs) -> (forall l, In l hs -> exists v, means (h_name l) (h_value l) v) ->
  gget d (str n) = gget (entries hs) (str n) ->
  exists d', parse_date d n = Ok d' /\ (forall k, k <> str n -> gget d' k = gget d k) /\ (forall l v, In l hs -> h_name l = n -> means n (h_value l) v -> gget d' (str n) = Some v) /\
    (gget d' (str n) <> None -> gget d (str n) <> None).
Proof.
  intros Hn Hd Hm E. unfold parse_date. rewrite E. destruct (gget (entries hs) (str n)) as [v|] eqn:G.
  - assert (Hin := gget_some_in _ _ _ G). unfold entries in Hin. rewrite map_map in Hin. apply in_map_iff in Hin. destruct Hin as (l & El & Hl). cbn [fst] in El. apply PropsTable.str_inj in El.
    destruct (Hm l Hl) as [m Hm1]. pose proof (get_entry hs l Hd Hl) as G1. rewrite El, G in G1. assert (Ev : v = stored l) by congruence. subst v. rewrite (stored_means l m Hm1).
    rewrite El in Hm1. assert (Hx : exists x, valid_date x /\ h_value l = date_text x /\ m = MDate x).
    { clear -Hm1 Hn. inversion Hm1 as [? E|? x Hi Hv|? ? Hi|? ? ? Hi]; subst.
      - destruct Hn as [Hn|Hn]; discriminate Hn.
      - exists x. auto.
      - exfalso. destruct Hn; subst; repeat (destruct Hi as [Hi|Hi]; [discriminate Hi|]); destruct Hi.
      - exfalso. destruct Hn; subst; repeat (destruct Hi as [Hi|Hi]; [discriminate Hi|]); destruct Hi. }
    destruct Hx as (x & Hv & Et & ->). cbn [stored_of]. rewrite Et, (strptime_text x Hv). cbn [rmap]. eexists. split; [reflexivity|]. split; [|split].
    + intros k Hk. rewrite gget_gput. destruct (zs_eqb k (str n)) eqn:Ek; [apply zs_eqb_eq in Ek; contradiction|reflexivity].
    + intros l' v' Hl' En' Hm'. rewrite gget_gput, zs_eqb_refl. f_equal.
      assert (El' : l' = l).
      { clear -Hd Hl Hl' En' El. rewrite <- El in En'. revert Hl Hl' En'. induction hs as [|a hs IH]; [intros []|]. inversion Hd as [|? ? N1 N2]; subst. intros [<-|A] [<-|B] E; auto.
        - exfalso. apply N1. rewrite <- E. apply in_map. exact B.
        - exfalso. apply N1. rewrite E. apply in_map. exact A. }
      subst l'. clear -Hm' Hn Et Hv. inversion Hm' as [? E|? x' Hi Hv'|? ? Hi|? ? ? Hi]; subst.
      * destruct Hn as [Hn|Hn]; discriminate Hn.
      * assert (Hs : date_text x' = date_text x) by congruence. pose proof (strptime_text x Hv) as P1. pose proof (strptime_text x' Hv') as P2. rewrite Hs in P2. congruence.
      * exfalso. destruct Hn; subst; repeat (destruct Hi as [Hi|Hi]; [discriminate Hi|]); destruct Hi.
      * exfalso. destruct Hn; subst; repeat (destruct Hi as [Hi|Hi]; [discriminate Hi|]); destruct Hi.
    + intros _. discriminate.
  - exists d. split; [reflexivity|]. split; [reflexivity|]. split; [|auto]. intros l v Hl En _. pose proof (get_entry hs l Hd Hl) as G1. rewrite En, G in G1. discriminate G1.
Qed.

(** *** Loading *)
Lemma says_stored hs n v : NoDup (map h_name hs) -> says hs n v -> (forall d, v <> MDate d) -> gget (entries hs) (str n) = Some v.
Proof.
  intros Hd (l & Hl & <- & Hm) Hv. rewrite (get_entry hs l Hd Hl), (stored_means l v Hm). destruct v; try reflexivity. exfalso. eapply Hv. reflexivity.
Qed.
(** the header leads to points *)
Lemma sections_ok l hs data dt : Forall ok_line (l :: hs) -> NoDup (map h_name (l :: hs)) -> (forall x, In x (l :: hs) -> exists v, means (h_name x) (h_value x) v) ->
  says (l :: hs) "DataType" (MInt dt) -> In dt [5; 6; 7] ->
  exists d, read_sections (concat (map line_text (unindent l :: hs))) data = read_points strtod d data /\
    (forall n v, says (l :: hs) n v -> gget d (str n) = Some v) /\ (forall k, gget d k <> None -> exists x, In x (l :: hs) /\ k = str (h_name x)).
Proof.
  intros Hl Hd Hm Hdt Hin. set (all := l :: hs) in *. inversion Hl as [|? ? Hl1 Hl2]; subst. unfold read_sections. rewrite lstrip_unindented by exact Hl1.
  assert (Hu : Forall ok_line (unindent l :: hs)) by (constructor; [apply unindent_ok; exact Hl1|exact Hl2]).
  rewrite (header_lines_ok (unindent l :: hs) Hu) by (intros x [<-|Hx]; [destruct (Hm l (or_introl eq_refl)) as [v Hv]; exact (means_convertible l v Hv)|destruct (Hm x (or_intror Hx)) as [v Hv]; exact (means_convertible x v Hv)]).
  cbn [rbind]. rewrite entries_unindent. fold all. set (d0 := ModelZip.update [] (entries all)).
  assert (E0 : forall k, gget d0 k = gget (entries all) k) by (intros k; apply update_entries; exact Hd).
  assert (Edt : item_int d0 "DataType" = Ok dt) by (unfold item_int; rewrite E0, (says_stored all _ _ Hd Hdt) by discriminate; reflexivity).
  rewrite Edt. cbn [rbind]. assert (Ei : exists w, sdf_item dt = Some w) by (destruct Hin as [<-|[<-|[<-|[]]]]; eexists; reflexivity). destruct Ei as [width ->].
  assert (N1 : str "ModDate" <> str "CreateDate") by (intros X; apply PropsTable.str_inj in X; discriminate X).
  destruct (parse_date_ok all d0 "CreateDate" (or_introl eq_refl) Hd Hm (E0 _)) as (d1 & P1 & A1 & B1 & C1). rewrite P1. cbn [rbind].
  destruct (parse_date_ok all d1 "ModDate" (or_intror eq_refl) Hd Hm) as (d2 & P2 & A2 & B2 & C2); [rewrite A1 by exact N1; apply E0|]. rewrite P2. cbn [rbind].
  exists d2. split; [reflexivity|]. split.
  - intros n v Hs. destruct (string_dec n "ModDate") as [->|Nm].
    + destruct Hs as (x & Hx & En & Hv). exact (B2 x v Hx En Hv).
    + rewrite A2 by (intros X; apply Nm, PropsTable.str_inj; exact X). destruct (string_dec n "CreateDate") as [->|Nc].
      * destruct Hs as (x & Hx & En & Hv). exact (B1 x v Hx En Hv).
      * rewrite A1 by (intros X; apply Nc, PropsTable.str_inj; exact X). rewrite E0. apply says_stored; [exact Hd|exact Hs|]. intros y ->. destruct Hs as (x & _ & _ & Hv). inversion Hv as [|? ? Hi| |]; subst.
        destruct Hi as [Hi|[Hi|[]]]; congruence.
  - intros k Hk. assert (K : gget d0 k <> None).
    { destruct (list_eq_dec Z.eq_dec k (str "ModDate")) as [->|Nk].
      - rewrite <- A1 by exact N1. apply C2. exact Hk.
      - rewrite A2 in Hk by exact Nk. destruct (list_eq_dec Z.eq_dec k (str "CreateDate")) as [->|Nc]; [apply C1; exact Hk|rewrite A1 in Hk by exact Nc; exact Hk]. }
    rewrite E0 in K. destruct (gget (entries all) k) as [v|] eqn:G; [|contradiction]. apply gget_some_in in G. unfold entries in G. rewrite map_map in G. apply in_map_iff in G.
    destruct G as (x & <- & Hx). exists x. auto.
Qed.
(** a file whose header is complete *)
Record complete (hs : list hline) (nx ny : Z) (xs ys zs : f64) : Prop := {
  k_lines : Forall ok_line hs;
  k_once : NoDup (map h_name hs);
  k_meaning : forall l, In l hs -> exists v, means (h_name l) (h_value l) v;
  k_points : says hs "NumPoints" (MInt nx);
  k_profiles : says hs "NumProfiles" (MInt ny);
  k_x : says hs "Xscale" (MFloat xs);
  k_y : says hs "Yscale" (MFloat ys);
  k_z : says hs "Zscale" (MFloat zs);
  k_type : exists dt, says hs "DataType" (MInt dt) /\ In dt [5; 6; 7] }.
(** what is loaded: the points row by row, the steps in micrometres, and the header as metadata *)
Definition loaded (hs : list hline) (ps : list point) (nx ny : Z) (xs ys zs : f64) (s : raw) (m : mdict) : Prop :=
  zlen (rdata s) = ny /\ (forall r, In r (rdata s) -> zlen r = nx) /\ Forall2 (height zs) ps (concat (rdata s)) /\
  rstep_x s = fmul xs (pow10 6) /\ rstep_y s = fmul ys (pow10 6) /\
  (forall n v, says hs n v -> gget m (str n) = Some v) /\ (forall k, gget m k <> None -> exists l, In l hs /\ k = str (h_name l)).
Lemma load_any hs pre w ps junk trailer tail nx ny xs ys zs : complete hs nx ny xs ys zs -> white pre -> white w -> white tail -> ok_trailer trailer -> Forall ok_point ps ->
  zlen ps = ny * nx -> ok_trailer junk -> no_number (replace3 66 65 68 (str "NAN") junk) -> ~ In 60 (replace3 66 65 68 (str "NAN") junk) ->
  exists s m, load_ascii to_float strtod (any_file pre hs (w ++ concat (map point_text ps) ++ junk) trailer tail) = Ok (s, m) /\ loaded hs ps nx ny xs ys zs s m.
Proof.
  intros K Hpre Hw Htail Htr Hps Hn Hj Hj1 Hj2. destruct K as [K1 K2 K3 K4 K5 K6 K7 K8 (dt & K9 & K10)].
  destruct hs as [|l hs]; [destruct K4 as (? & [] & _)|].
  assert (Hdata : ok_trailer (w ++ concat (map point_text ps) ++ junk)).
  { apply Forall_forall. intros c Hc. rewrite !in_app_iff in Hc. destruct Hc as [Hc|[Hc|Hc]].
    - destruct (white_char w c Hw Hc). split; assumption.
    - destruct (points_char ps c Hps Hc). split; assumption.
    - unfold ok_trailer in Hj. rewrite Forall_forall in Hj. exact (Hj c Hc). }
  rewrite (load_sections pre l hs _ trailer tail Hpre K1 Hdata Htr Htail).
  destruct (sections_ok l hs (w ++ concat (map point_text ps) ++ junk) dt K1 K2 K3 K9 K10) as (d & E & G1 & G2). rewrite E.
  assert (Nx : 0 <= nx). { destruct K4 as (x & _ & _ & Hv). inversion Hv; assumption. }
  assert (Ny : 0 <= ny). { destruct K5 as (x & _ & _ & Hv). inversion Hv; assumption. }
  destruct (read_points_ok d w ps junk nx ny xs ys zs) as (s & Es & F & R1 & R2 & R3 & R4); try assumption;
    try (unfold item_int, item_float; match goal with |- context[gget d (str ?n)] => erewrite (G1 n) by eassumption end; reflexivity).
  exists s, d. split; [exact Es|]. repeat split; assumption.
Qed.
(** C98: every file with a complete header - its lines in any order, with any blanks and line ends -, ny * nx points separated by any white space and any trailer is loaded:
    the heights are number * Zscale * 10^6 with BAD points not measured, and the metadata are the header. *)
Theorem C98_load hs pre w ps trailer tail nx ny xs ys zs : complete hs nx ny xs ys zs -> white pre -> white w -> white tail -> ok_trailer trailer -> Forall ok_point ps ->
  zlen ps = ny * nx -> strtod [] = None ->
  exists s m, load_ascii to_float strtod (file pre hs w ps trailer tail) = Ok (s, m) /\ loaded hs ps nx ny xs ys zs s m.
Proof.
  intros K Hpre Hw Htail Htr Hps Hn H0. destruct (load_any hs pre w ps [] trailer tail nx ny xs ys zs K Hpre Hw Htail Htr Hps Hn) as (s & m & E & L); [constructor|exact H0|intros []|].
  exists s, m. split; [|exact L]. unfold any_file in E. rewrite app_nil_r in E. exact E.
Qed.
(** The trailer does not matter: two files that differ only there give the same surface and metadata, or fail alike. *)
Theorem C98_trailer hs pre data t1 t2 tail : hs <> [] -> Forall ok_line hs -> white pre -> ok_trailer data -> ok_trailer t1 -> ok_trailer t2 -> white tail ->
  load_ascii to_float strtod (any_file pre hs data t1 tail) = load_ascii to_float strtod (any_file pre hs data t2 tail).
Proof. intros H0 H Hp Hd H1 H2 Ht. destruct hs as [|l hs]; [contradiction|]. rewrite !load_sections by assumption. reflexivity. Qed.
(** A wrong number of points is refused. *)
Theorem C98_count hs pre w ps trailer tail nx ny xs ys zs : complete hs nx ny xs ys zs -> white pre -> white w -> white tail -> ok_trailer trailer -> Forall ok_point ps ->
  strtod [] = None -> zlen ps <> ny * nx -> load_ascii to_float strtod (file pre hs w ps trailer tail) = Err ValueError.
Proof.
  intros K Hpre Hw Htail Htr Hps H0 Hn. destruct K as [K1 K2 K3 K4 K5 K6 K7 K8 (dt & K9 & K10)].
  destruct hs as [|l hs]; [destruct K4 as (? & [] & _)|].
  assert (Hdata : ok_trailer (w ++ concat (map point_text ps))).
  { apply Forall_forall. intros c Hc. rewrite !in_app_iff in Hc. destruct Hc as [Hc|Hc].
    - destruct (white_char w c Hw Hc). split; assumption.
    - destruct (points_char ps c Hps Hc). split; assumption. }
  change (file pre (l :: hs) w ps trailer tail) with (any_file pre (l :: hs) (w ++ concat (map point_text ps)) trailer tail).
  rewrite (load_sections pre l hs _ trailer tail Hpre K1 Hdata Htr Htail).
  destruct (sections_ok l hs (w ++ concat (map point_text ps)) dt K1 K2 K3 K9 K10) as (d & E & G1 & G2). rewrite E.
  assert (Nx : 0 <= nx). { destruct K4 as (x & _ & _ & Hv). inversion Hv; assumption. }
  assert (Ny : 0 <= ny). { destruct K5 as (x & _ & _ & Hv). inversion Hv; assumption. }
  unfold read_points. pose proof (replace_points w ps [] Hw Hps) as Er. cbn [replace3] in Er. rewrite !app_nil_r in Er. rewrite Er.
  set (text := w ++ concat (map point_nan ps)). unfold item_int. rewrite (G1 _ _ K4), (G1 _ _ K5). cbn [rbind].
  destruct (fromstring_points ps [] Hps H0 w (S (length text)) Hw) as (vs & Ev & F).
  { pose proof (points_length ps Hps). unfold text. rewrite !app_length. lia. }
  rewrite app_nil_r in Ev. fold text in Ev. rewrite Ev. unfold reshape_np. destruct (Z.ltb_spec ny 0); [lia|]. destruct (Z.ltb_spec nx 0); [lia|]. cbn [andb].
  assert (length ps = length vs) by (clear -F; induction F; cbn; congruence). unfold zlen in Hn.
  unfold reshape. destruct (Nat.eqb_spec (length vs) (Z.to_nat ny * Z.to_nat nx)) as [X|]; [|reflexivity]. exfalso. apply Hn. rewrite <- Z2Nat.inj_mul in X by assumption. lia.
Qed.
(** the header up to a bad line *)
Lemma load_bad_line e pre hs bad more data trailer tail : white pre -> hs <> [] -> Forall ok_line hs -> (forall x, In x hs -> exists v, means (h_name x) (h_value x) v) ->
  ok_trailer (bad ++ 10 :: more) -> (forall c, In c bad -> is_linebreak c = false) -> ok_trailer data -> ok_trailer trailer -> white tail ->
  (forall d, header_line to_float d bad = Err e) -> load_ascii to_float strtod (any_text pre hs (bad ++ 10 :: more) data trailer tail) = Err e.
Proof.
  intros Hp H0 Hl Hm Hx Hb Hd Ht He Hbad. destruct hs as [|l hs]; [contradiction|]. rewrite load_text by assumption. inversion Hl as [|? ? Hl1 Hl2]; subst. unfold read_sections.
  rewrite lstrip_unindented_more by exact Hl1. rewrite header_lines_more.
  - rewrite splitlines_line by exact Hb. cbn [header_lines]. rewrite Hbad. reflexivity.
  - constructor; [apply unindent_ok; exact Hl1|exact Hl2].
  - intros x [<-|Hi]; [destruct (Hm l (or_introl eq_refl)) as [v Hv]; exact (means_convertible l v Hv)|destruct (Hm x (or_intror Hi)) as [v Hv]; exact (means_convertible x v Hv)].
Qed.
(** A line with an unknown name is refused as corrupted. *)
Theorem C98_unknown pre hs i name b v more data trailer tail : white pre -> hs <> [] -> Forall ok_line hs -> (forall x, In x hs -> exists v, means (h_name x) (h_value x) v) ->
  blank i -> blank b -> trimmed name -> Forall value_char name -> Forall value_char v -> (forall n, In n sdf_names -> name <> str n) ->
  ok_trailer more -> ok_trailer data -> ok_trailer trailer -> white tail ->
  load_ascii to_float strtod (any_text pre hs ((i ++ name ++ b ++ [61] ++ v) ++ 10 :: more) data trailer tail) = Err CorruptedFileError.
Proof.
  intros Hp H0 Hl Hm Hi Hb Hn Hc Hv Hk Hx Hd Ht He.
  assert (HC : forall c, In c (i ++ name ++ b ++ [61] ++ v) -> c = 9 \/ 32 <= c <= 126 /\ c <> 42).
  { intros c H. unfold blank in *. rewrite Forall_forall in Hi, Hb, Hc, Hv. rewrite !in_app_iff in H. destruct H as [H|[H|[H|[H|H]]]].
    - destruct (Hi c H); lia.
    - destruct (Hc c H) as (? & ? & ?). lia.
    - destruct (Hb c H); lia.
    - destruct H as [<-|[]]. lia.
    - destruct (Hv c H) as (? & ? & ?). lia. }
  apply load_bad_line; try assumption.
  - apply Forall_app. split; [apply Forall_forall; intros c H; specialize (HC c H); lia|]. constructor; [lia|exact Hx].
  - intros c H. specialize (HC c H). unfold is_linebreak. destruct (Z.leb_spec 10 c), (Z.leb_spec c 13), (Z.leb_spec 28 c), (Z.leb_spec c 30); cbn; auto; lia.
  - intros d. unfold header_line. replace (i ++ name ++ b ++ [61] ++ v) with ((i ++ name ++ b) ++ 61 :: v) by (rewrite <- !app_assoc; reflexivity).
    rewrite split_on_app, split_on_none.
    + rewrite strip_white; try (apply blank_white; assumption); try assumption. rewrite gget_none; [reflexivity|]. intros X.
      assert (K : map fst ascii_types = map str sdf_names) by reflexivity. rewrite K in X. apply in_map_iff in X. destruct X as (n & En & Hin). exact (Hk n Hin (eq_sym En)).
    + intros c H ->. rewrite Forall_forall in Hv. destruct (Hv _ H) as (_ & X & _). lia.
    + intros c H ->. rewrite !in_app_iff in H. destruct H as [H|[H|H]].
      * exact (blank_no 61 _ Hi ltac:(lia) ltac:(lia) H).
      * rewrite Forall_forall in Hc. destruct (Hc _ H) as (_ & X & _). lia.
      * exact (blank_no 61 _ Hb ltac:(lia) ltac:(lia) H).
Qed.
(** Not guaranteed: empty lines in the header are allowed.  The file is refused, whatever it holds otherwise. *)
Theorem C98_blank_line_refuted pre hs b more data trailer tail : white pre -> hs <> [] -> Forall ok_line hs -> (forall x, In x hs -> exists v, means (h_name x) (h_value x) v) ->
  blank b -> ok_trailer more -> ok_trailer data -> ok_trailer trailer -> white tail ->
  load_ascii to_float strtod (any_text pre hs (b ++ 10 :: more) data trailer tail) = Err ValueError.
Proof.
  intros Hp H0 Hl Hm Hb Hx Hd Ht He. assert (HC : forall c, In c b -> c = 32 \/ c = 9) by (unfold blank in Hb; rewrite Forall_forall in Hb; exact Hb). apply load_bad_line; try assumption.
  - apply Forall_app. split; [apply Forall_forall; intros c H; specialize (HC c H); lia|]. constructor; [lia|exact Hx].
  - intros c H. destruct (HC c H) as [-> | ->]; reflexivity.
  - intros d. unfold header_line. rewrite split_on_none; [reflexivity|]. intros c H ->. destruct (HC _ H); lia.
Qed.
(** the header read, for the cases that fail afterwards *)
Lemma header_read pre hs data trailer tail : white pre -> hs <> [] -> Forall ok_line hs -> NoDup (map h_name hs) -> (forall x, In x hs -> convertible x) ->
  ok_trailer data -> ok_trailer trailer -> white tail ->
  exists d, (forall k, gget d k = gget (entries hs) k) /\ load_ascii to_float strtod (any_file pre hs data trailer tail) =
    rbind (item_int d "DataType") (fun dt =>
    match sdf_item dt with
    | None => Err CorruptedFileError
    | Some _ => rbind (parse_date d "CreateDate") (fun d1 => rbind (parse_date d1 "ModDate") (fun d2 => read_points strtod d2 data))
    end).
Proof.
  intros Hp H0 Hl Hd Hm Hdt Ht He. destruct hs as [|l hs]; [contradiction|]. rewrite load_sections by assumption. inversion Hl as [|? ? Hl1 Hl2]; subst. unfold read_sections.
  rewrite lstrip_unindented by exact Hl1. rewrite header_lines_ok.
  - exists (ModelZip.update [] (entries (l :: hs))). split; [intros k; apply update_entries; exact Hd|reflexivity].
  - constructor; [apply unindent_ok; exact Hl1|exact Hl2].
  - intros x [<-|Hi]; [exact (Hm l (or_introl eq_refl))|exact (Hm x (or_intror Hi))].
Qed.
(** A data type the standard does not know is refused as corrupted. *)
Theorem C98_type pre hs data trailer tail dt : white pre -> Forall ok_line hs -> NoDup (map h_name hs) -> (forall x, In x hs -> exists v, means (h_name x) (h_value x) v) ->
  ok_trailer data -> ok_trailer trailer -> white tail -> says hs "DataType" (MInt dt) -> ~ In dt [5; 6; 7] ->
  load_ascii to_float strtod (any_file pre hs data trailer tail) = Err CorruptedFileError.
Proof.
  intros Hp Hl Hd Hm Hdt Ht He Hs Hn. assert (H0 : hs <> []) by (intros ->; destruct Hs as (? & [] & _)).
  destruct (header_read pre hs data trailer tail Hp H0 Hl Hd) as (d & G & E); try assumption; [intros x Hx; destruct (Hm x Hx) as [v Hv]; exact (means_convertible x v Hv)|]. rewrite E.
  unfold item_int. rewrite G, (says_stored hs _ _ Hd Hs) by discriminate. cbn [rbind]. unfold sdf_item.
  destruct (Z.eqb_spec dt 5); [exfalso; apply Hn; cbn; auto|]. destruct (Z.eqb_spec dt 6); [exfalso; apply Hn; cbn; auto|]. destruct (Z.eqb_spec dt 7); [exfalso; apply Hn; cbn; auto|]. reflexivity.
Qed.
(** Not guaranteed: damaged files are reported as corrupted.  A header without data type is a KeyError. *)
Theorem C98_missing_refuted pre hs data trailer tail : white pre -> hs <> [] -> Forall ok_line hs -> NoDup (map h_name hs) -> (forall x, In x hs -> exists v, means (h_name x) (h_value x) v) ->
  ok_trailer data -> ok_trailer trailer -> white tail -> ~ In "DataType"%string (map h_name hs) ->
  load_ascii to_float strtod (any_file pre hs data trailer tail) = Err KeyError.
Proof.
  intros Hp H0 Hl Hd Hm Hdt Ht He Hn.
  destruct (header_read pre hs data trailer tail Hp H0 Hl Hd) as (d & G & E); try assumption; [intros x Hx; destruct (Hm x Hx) as [v Hv]; exact (means_convertible x v Hv)|]. rewrite E.
  unfold item_int. rewrite G, gget_none; [reflexivity|]. unfold entries. rewrite map_map. cbn [fst]. intros X. apply in_map_iff in X. destruct X as (l & El & Hin). apply PropsTable.str_inj in El.
  apply Hn. rewrite <- El. apply in_map. exact Hin.
Qed.
(** Not guaranteed: text that is not a number is noticed.  What follows the last point is ignored, if it does not begin with a number. *)
Theorem C98_junk_refuted hs pre w ps junk trailer tail nx ny xs ys zs : complete hs nx ny xs ys zs -> white pre -> white w -> white tail -> ok_trailer trailer -> Forall ok_point ps ->
  zlen ps = ny * nx -> ok_trailer junk -> ~ In 66 junk -> ~ In 60 junk -> strtod (c_lstrip junk) = None ->
  exists s m, load_ascii to_float strtod (any_file pre hs (w ++ concat (map point_text ps) ++ junk) trailer tail) = Ok (s, m) /\ loaded hs ps nx ny xs ys zs s m.
Proof.
  intros K Hpre Hw Htail Htr Hps Hn Hj H66 H60 Hs. assert (E : replace3 66 65 68 (str "NAN") junk = junk) by (rewrite <- (app_nil_r junk) at 1; rewrite replace_app by exact H66; cbn; apply app_nil_r).
  apply load_any; try assumption; unfold no_number; rewrite E; assumption.
Qed.
(** Not guaranteed: a file without a date, which programs write as zeros or blanks, is loaded. *)
Theorem C98_no_date_refuted hs l nx ny xs ys zs pre w ps trailer tail : complete hs nx ny xs ys zs -> ok_line l -> h_name l = "CreateDate"%string -> ~ In "CreateDate"%string (map h_name hs) ->
  h_value l = str "000000000000" \/ h_value l = [] -> white pre -> white w -> white tail -> ok_trailer trailer -> Forall ok_point ps ->
  load_ascii to_float strtod (file pre (l :: hs) w ps trailer tail) = Err ValueError.
Proof.
  intros K Hl Hn Hnew Hv Hpre Hw Htail Htr Hps. destruct K as [K1 K2 K3 K4 K5 K6 K7 K8 (dt & K9 & K10)].
  assert (Hdata : ok_trailer (w ++ concat (map point_text ps))).
  { apply Forall_forall. intros c Hc. rewrite !in_app_iff in Hc. destruct Hc as [Hc|Hc].
    - destruct (white_char w c Hw Hc). split; assumption.
    - destruct (points_char ps c Hps Hc). split; assumption. }
  assert (Hd : NoDup (map h_name (l :: hs))) by (cbn [map]; rewrite Hn; constructor; assumption).
  assert (Hcv : convertible l) by (exists TStr, (MStr (h_value l)); rewrite Hn; split; reflexivity).
  destruct (header_read pre (l :: hs) (w ++ concat (map point_text ps)) trailer tail) as (d & G & E); try assumption; [discriminate|constructor; assumption| |].
  { intros x [<-|Hx]; [exact Hcv|]. destruct (K3 x Hx) as [v Hm]. exact (means_convertible x v Hm). }
  change (file pre (l :: hs) w ps trailer tail) with (any_file pre (l :: hs) (w ++ concat (map point_text ps)) trailer tail). rewrite E.
  assert (Hs : says (l :: hs) "DataType" (MInt dt)) by (destruct K9 as (x & Hx & R); exists x; split; [right; exact Hx|exact R]).
  unfold item_int. rewrite G, (says_stored _ _ _ Hd Hs) by discriminate. cbn [rbind].
  assert (Ei : exists width, sdf_item dt = Some width) by (destruct K10 as [<-|[<-|[<-|[]]]]; eexists; reflexivity). destruct Ei as [width ->].
  unfold parse_date. pose proof (get_entry (l :: hs) l Hd (or_introl eq_refl)) as El. rewrite Hn in El. rewrite G, El. unfold stored. rewrite Hn.
  change (kind "CreateDate") with (Some TStr). cbn [convert]. destruct Hv as [-> | ->]; reflexivity.
Qed.
End Props.

(** *** Dates *)
(** Every date written as ddmmyyyyhhmm is read back, and nothing but existing dates is ever read. *)
Theorem C98_dates : (forall d, valid_date d -> strptime (date_text d) = Ok d) /\ forall s d, strptime s = Ok d -> valid_date d.
Proof.
  split; [exact strptime_text|]. intros s d H. unfold strptime in H.
  assert (T : forall l1 h1 l2 h2 t v r, In (v, r) (two l1 h1 l2 h2 t) -> exists a b, l1 <= a <= h1 /\ l2 <= b <= h2 /\ v = (a - 48) * 10 + (b - 48)).
  { intros l1 h1 l2 h2 t v r Hi. destruct t as [|a [|b t]]; cbn [two] in Hi; try contradiction. destruct (in_range l1 h1 a && in_range l2 h2 b) eqn:E; [|contradiction].
    destruct Hi as [Hi|[]]. injection Hi as <- <-. unfold in_range in E. rewrite !andb_true_iff, !Z.leb_le in E. exists a, b. lia. }
  assert (O : forall lo hi t v r, In (v, r) (one lo hi t) -> lo - 48 <= v <= hi - 48).
  { intros lo hi t v r Hi. destruct t as [|a t]; cbn [one] in Hi; [contradiction|]. destruct (in_range lo hi a) eqn:E; [|contradiction]. destruct Hi as [Hi|[]]. injection Hi as <- <-.
    unfold in_range in E. rewrite andb_true_iff, !Z.leb_le in E. lia. }
  assert (Hd : forall t v r, In (v, r) (re_day t) -> 1 <= v <= 31).
  { intros t v r Hi. unfold re_day in Hi. rewrite !in_app_iff in Hi. destruct Hi as [Hi|[Hi|[Hi|[Hi|Hi]]]]; try (apply T in Hi; destruct Hi as (a & b & ? & ? & ->); lia); [apply O in Hi; lia|].
    unfold blank_one in Hi. destruct t as [|c t]; [contradiction|]. destruct c as [|p|p]; try contradiction. do 6 (destruct p as [p|p|]; try contradiction). apply O in Hi. lia. }
  assert (Hm : forall t v r, In (v, r) (re_month t) -> 1 <= v <= 12).
  { intros t v r Hi. unfold re_month in Hi. rewrite !in_app_iff in Hi. destruct Hi as [Hi|[Hi|Hi]]; try (apply T in Hi; destruct Hi as (a & b & ? & ? & ->); lia). apply O in Hi. lia. }
  assert (Hy : forall t v r, In (v, r) (re_year t) -> 0 <= v <= 9999).
  { intros t v r Hi. unfold re_year in Hi. apply in_flat_map in Hi. destruct Hi as ((h & r1) & H1 & H2). apply in_map_iff in H2. destruct H2 as ((lo & r2) & E & H2). injection E as <- <-.
    apply T in H1. apply T in H2. destruct H1 as (a & b & ? & ? & ->). destruct H2 as (a' & b' & ? & ? & ->). lia. }
  assert (Hh : forall t v r, In (v, r) (re_hour t) -> 0 <= v <= 23).
  { intros t v r Hi. unfold re_hour in Hi. rewrite !in_app_iff in Hi. destruct Hi as [Hi|[Hi|Hi]]; try (apply T in Hi; destruct Hi as (a & b & ? & ? & ->); lia). apply O in Hi. lia. }
  assert (Hi : forall t v r, In (v, r) (re_minute t) -> 0 <= v <= 59).
  { intros t v r Hi. unfold re_minute in Hi. rewrite !in_app_iff in Hi. destruct Hi as [Hi|Hi]; try (apply T in Hi; destruct Hi as (a & b & ? & ? & ->); lia). apply O in Hi. lia. }
  destruct (re_date s) as [|[x r] l] eqn:E; [discriminate|]. destruct r; [|discriminate]. destruct (exists_date x) eqn:Ex; [|discriminate]. assert (x = d) by congruence. subst x.
  assert (In (d, []) (re_date s)) by (rewrite E; left; reflexivity). clear E H. unfold re_date in H0.
  apply in_flat_map in H0. destruct H0 as ((vd & s1) & D1 & H0). apply in_flat_map in H0. destruct H0 as ((vm & s2) & D2 & H0). apply in_flat_map in H0. destruct H0 as ((vy & s3) & D3 & H0).
  apply in_flat_map in H0. destruct H0 as ((vh & s4) & D4 & H0). apply in_map_iff in H0. destruct H0 as ((vi & s5) & Ed & D5). injection Ed as <- _.
  apply Hd in D1. apply Hm in D2. apply Hy in D3. apply Hh in D4. apply Hi in D5. unfold exists_date in Ex. cbn [d_year d_month d_day] in Ex. rewrite andb_true_iff, !Z.leb_le in Ex.
  destruct Ex as [X1 X2]. rewrite days_eq in X2 by exact D2. repeat split; cbn [d_year d_month d_day d_hour d_minute]; lia.
Qed.

(** *** An example, with a strtod for natural numbers *)
Fixpoint digits_of (s : pystr) : pystr * pystr :=
  match s with c :: r => if ModelFormats.is_digit c then let '(d, t) := digits_of r in (c :: d, t) else ([], s) | [] => ([], []) end.
Definition ex_strtod (s : pystr) : option (f64 * pystr) :=
  match after_prefix (str "NAN") s with
  | Some r => Some (nan64, r)
  | None => match digits_of s with ([], _) => None | (d, r) => Some (f64_of_Z (dec_value d), r) end
  end.
Definition ex_float (s : pystr) : res f64 := rmap f64_of_Z (int_parse s).
Lemma ends_digits r : ends r -> digits_of r = ([], r).
Proof.
  destruct r as [|c r]; [reflexivity|]. cbn [ends digits_of]. intros H. unfold ModelFormats.is_digit. destruct (Z.leb_spec 48 c); [lia|]. reflexivity.
Qed.
Lemma ex_nan : forall r, ends r -> exists x, isnan x = true /\ ex_strtod (str "NAN" ++ r) = Some (x, r).
Proof. intros r _. exists nan64. split; reflexivity. Qed.
Lemma ex_denotes k : 0 <= k -> denotes ex_strtod (dec k) (f64_of_Z k).
Proof.
  intros Hk. destruct (dec_spec k Hk) as (A & B & _). unfold int_parse in A. destruct (negb (zs_eqb (dec k) []) && forallb ModelFormats.is_digit (dec k)) eqn:E; [|discriminate A].
  apply andb_true_iff in E. destruct E as [E1 E2]. assert (H0 : dec k <> []) by (intros X; rewrite X in E1; discriminate E1). apply PropsMagic.ok_inj in A.
  split; [exact H0|]. split; [eapply Forall_impl; [|exact B]; cbn; intros; lia|]. intros r Hr.
  assert (D : digits_of (dec k ++ r) = (dec k, r)).
  { clear -B Hr. induction B as [|c t Hc B IH]; [apply ends_digits; exact Hr|]. cbn [app digits_of]. unfold ModelFormats.is_digit at 1. destruct (Z.leb_spec 48 c); [|lia]. destruct (Z.leb_spec c 57); [|lia]. cbn [andb]. rewrite IH. reflexivity. }
  unfold ex_strtod. rewrite D. assert (N : after_prefix (str "NAN") (dec k ++ r) = None).
  { destruct (dec k) as [|c t]; [contradiction|]. inversion B; subst. change (str "NAN") with (78 :: str "AN"). cbn [app after_prefix]. destruct (Z.eqb_spec 78 c); [lia|reflexivity]. }
  rewrite N. destruct (dec k) as [|c t] eqn:Ed; [contradiction|]. rewrite A. reflexivity.
Qed.
Definition ex_line (n : string) (v : pystr) : hline := mkLine [] n [32] [32; 32] v [] true.
Definition ex_size (v : pystr) : list hline :=
  [ex_line "DataType" (dec 7); ex_line "Xscale" (dec 3); ex_line "NumPoints" (dec 2); ex_line "NumProfiles" v; ex_line "Yscale" (dec 4); ex_line "Zscale" (dec 5)].
Definition ex_date : date := mkDate 2024 2 29 23 59.
Definition ex_lines : list hline := mkLine [32; 9] "CreateDate" [] [] (date_text ex_date) [9] false :: ex_size (dec 2).
Definition ex_points : list point := [(Some (dec 1), [32]); (None, [32; 32]); (Some (dec 30), [10]); (Some (dec 4), [13; 10])].
Lemma ex_points_ok : Forall (ok_point ex_strtod) ex_points.
Proof.
  repeat constructor; unfold ok_point, ex_points; cbn [fst snd]; try (do 2 eexists; reflexivity); try lia; try exact Logic.I; eexists; apply ex_denotes; lia.
Qed.
Lemma ex_trimmed k : 0 <= k -> Forall value_char (dec k) /\ trimmed (dec k).
Proof.
  intros Hk. destruct (dec_spec k Hk) as (_ & B & _). rewrite Forall_forall in B. split.
  - apply Forall_forall. intros c Hc. specialize (B c Hc). unfold value_char. lia.
  - assert (S : forall c, In c (dec k) -> is_space c = false).
    { intros c Hc. specialize (B c Hc). unfold is_space. destruct (Z.eqb_spec c 32); [lia|]. destruct (Z.leb_spec 9 c), (Z.leb_spec c 13), (Z.leb_spec 28 c), (Z.leb_spec c 31); cbn; try reflexivity; lia. }
    split; [destruct (dec k) as [|c t]; [exact Logic.I|apply S; left; reflexivity]|]. destruct (rev (dec k)) as [|c t] eqn:E; [exact Logic.I|]. apply S, in_rev. rewrite E. left. reflexivity.
Qed.
Lemma ex_line_ok n v : In n sdf_names -> Forall value_char v -> trimmed v -> ok_line (ex_line n v).
Proof. intros Hn H1 H2. unfold ok_line, ex_line. cbn. repeat split; try assumption; try (repeat constructor; lia); apply H2. Qed.
Lemma ex_size_ok v : Forall value_char v -> trimmed v -> Forall ok_line (ex_size v).
Proof.
  intros H1 H2. unfold ex_size. assert (Ht : forall k, 0 <= k -> Forall value_char (dec k) /\ trimmed (dec k)) by exact ex_trimmed.
  repeat (apply Forall_cons; [apply ex_line_ok; [unfold sdf_names; cbn [In]; tauto|first [exact H1|apply Ht; lia]|first [exact H2|apply Ht; lia]]|]). constructor.
Qed.
Theorem C98_example : complete ex_float ex_lines 2 2 (f64_of_Z 3) (f64_of_Z 4) (f64_of_Z 5) /\ zlen ex_points = 2 * 2 /\
  exists s m, load_ascii ex_float ex_strtod (file [13; 10] ex_lines [10] ex_points (str "<OperatorName>Tom</OperatorName>") [10]) = Ok (s, m) /\
    loaded ex_float ex_strtod ex_lines ex_points 2 2 (f64_of_Z 3) (f64_of_Z 4) (f64_of_Z 5) s m.
Proof.
  assert (F : forall k, 0 <= k -> ex_float (dec k) = Ok (f64_of_Z k)) by (intros k Hk; unfold ex_float; destruct (dec_spec k Hk) as (-> & _); reflexivity).
  assert (V : valid_date ex_date) by (repeat split; cbn; lia).
  assert (K : complete ex_float ex_lines 2 2 (f64_of_Z 3) (f64_of_Z 4) (f64_of_Z 5)).
  { split.
    - unfold ex_lines. constructor; [|apply ex_size_ok; apply ex_trimmed; lia]. unfold ok_line. cbn [h_indent h_name h_before h_after h_value h_trail].
      split; [repeat constructor; lia|]. split; [constructor|]. split; [constructor|]. split; [repeat constructor; lia|]. split; [cbn; auto|].
      split; [vm_compute; repeat constructor; discriminate|split; reflexivity].
    - vm_compute. repeat (constructor; [intros H; repeat (destruct H as [H|H]; [discriminate H|]); exact H|]). constructor.
    - intros l Hl. unfold ex_lines, ex_size in Hl. cbn [In] in Hl.
      destruct Hl as [<-|[<-|[<-|[<-|[<-|[<-|[<-|[]]]]]]]]; unfold ex_line; cbn [h_name h_value]; eexists;
        first [apply means_date; [cbn; tauto|exact V]|apply means_int; [cbn; tauto|lia]|eapply means_float; [cbn; tauto|apply F; lia]].
    - exists (ex_line "NumPoints" (dec 2)). split; [cbn; tauto|]. split; [reflexivity|]. apply means_int; [cbn; tauto|lia].
    - exists (ex_line "NumProfiles" (dec 2)). split; [cbn; tauto|]. split; [reflexivity|]. apply means_int; [cbn; tauto|lia].
    - exists (ex_line "Xscale" (dec 3)). split; [cbn; tauto|]. split; [reflexivity|]. apply means_float; [cbn; tauto|apply F; lia].
    - exists (ex_line "Yscale" (dec 4)). split; [cbn; tauto|]. split; [reflexivity|]. apply means_float; [cbn; tauto|apply F; lia].
    - exists (ex_line "Zscale" (dec 5)). split; [cbn; tauto|]. split; [reflexivity|]. apply means_float; [cbn; tauto|apply F; lia].
    - exists 7. split; [|cbn; tauto]. exists (ex_line "DataType" (dec 7)). split; [cbn; tauto|]. split; [reflexivity|]. apply means_int; [cbn; tauto|lia]. }
  split; [exact K|]. split; [reflexivity|]. apply C98_load; try exact K; try reflexivity.
  - exact ex_nan.
  - repeat constructor; lia.
  - repeat constructor; lia.
  - repeat constructor; lia.
  - vm_compute. repeat constructor; discriminate.
  - exact ex_points_ok.
Qed.
(** Not guaranteed: what the trailer says about the measurement, e.g. the operator, is in the metadata.  It is never looked at. *)
Theorem C98_trailer_refuted : exists s m, load_ascii ex_float ex_strtod (file [13; 10] ex_lines [10] ex_points (str "<OperatorName>Tom</OperatorName>") [10]) = Ok (s, m) /\
  gget m (str "OperatorName") = None /\ findall 100 (str "<OperatorName>Tom</OperatorName>") = [(str "OperatorName", str "Tom")].
Proof.
  destruct C98_example as (_ & _ & s & m & E & L). exists s, m. split; [exact E|]. split; [|vm_compute; reflexivity].
  destruct L as (_ & _ & _ & _ & _ & _ & L). destruct (gget m (str "OperatorName")) as [v|] eqn:G; [exfalso|reflexivity].
  destruct (L (str "OperatorName")) as (l & Hl & El); [rewrite G; discriminate|]. apply PropsTable.str_inj in El. unfold ex_lines, ex_size in Hl. cbn [In] in Hl.
  destruct Hl as [<-|[<-|[<-|[<-|[<-|[<-|[<-|[]]]]]]]]; discriminate El.
Qed.
(** Not guaranteed: the surface has the size the file states, or the file is refused.  A negative number of profiles is computed from the number of points. *)
Theorem C98_negative_refuted : exists s m, load_ascii ex_float ex_strtod (file [10] (ex_size (str "-7")) [10] ex_points [] []) = Ok (s, m) /\
  gget m (str "NumProfiles") = Some (MInt (-7)) /\ length (rdata s) = 2%nat.
Proof.
  assert (F : forall k, 0 <= k -> ex_float (dec k) = Ok (f64_of_Z k)) by (intros k Hk; unfold ex_float; destruct (dec_spec k Hk) as (-> & _); reflexivity).
  assert (C : forall x, In x (ex_size (str "-7")) -> convertible ex_float x).
  { intros x Hx. unfold ex_size in Hx. cbn [In] in Hx. destruct Hx as [<-|[<-|[<-|[<-|[<-|[<-|[]]]]]]]; unfold convertible, ex_line; cbn [h_name h_value]; do 2 eexists; (split; [reflexivity|]); cbn [convert];
     first [rewrite F by lia|rewrite py_int_dec by lia|idtac]; reflexivity. }
  assert (Hd : NoDup (map h_name (ex_size (str "-7")))).
  { vm_compute. repeat (constructor; [intros H; repeat (destruct H as [H|H]; [discriminate H|]); exact H|]). constructor. }
  assert (Hl : Forall ok_line (ex_size (str "-7"))) by (apply ex_size_ok; [vm_compute; repeat constructor; discriminate|split; reflexivity]).
  assert (Hdata : ok_trailer ([10] ++ concat (map point_text ex_points))) by (vm_compute; repeat constructor; discriminate).
  destruct (header_read ex_float ex_strtod [10] (ex_size (str "-7")) ([10] ++ concat (map point_text ex_points)) [] []) as (d & G & E); try assumption; try (repeat constructor; lia); [discriminate|].
  change (file [10] (ex_size (str "-7")) [10] ex_points [] []) with (any_file [10] (ex_size (str "-7")) ([10] ++ concat (map point_text ex_points)) [] []). rewrite E.
  assert (GE : forall l, In l (ex_size (str "-7")) -> gget d (str (h_name l)) = Some (stored ex_float l)) by (intros l Hin; rewrite G; apply get_entry; assumption).
  assert (Gn : item_int d "NumProfiles" = Ok (-7)) by (unfold item_int; change (str "NumProfiles") with (str (h_name (ex_line "NumProfiles" (str "-7")))); rewrite GE by (cbn; tauto); reflexivity).
  assert (Gx : item_int d "NumPoints" = Ok 2) by (unfold item_int; change (str "NumPoints") with (str (h_name (ex_line "NumPoints" (dec 2)))); rewrite GE by (cbn; tauto); reflexivity).
  assert (Gt : item_int d "DataType" = Ok 7) by (unfold item_int; change (str "DataType") with (str (h_name (ex_line "DataType" (dec 7)))); rewrite GE by (cbn; tauto); reflexivity).
  assert (GX : item_float d "Xscale" = Ok (f64_of_Z 3)) by (unfold item_float; change (str "Xscale") with (str (h_name (ex_line "Xscale" (dec 3)))); rewrite GE by (cbn; tauto); unfold stored; change (kind _) with (Some TFloat); cbn [convert h_value ex_line]; rewrite F by lia; reflexivity).
  assert (GY : item_float d "Yscale" = Ok (f64_of_Z 4)) by (unfold item_float; change (str "Yscale") with (str (h_name (ex_line "Yscale" (dec 4)))); rewrite GE by (cbn; tauto); unfold stored; change (kind _) with (Some TFloat); cbn [convert h_value ex_line]; rewrite F by lia; reflexivity).
  assert (GZ : item_float d "Zscale" = Ok (f64_of_Z 5)) by (unfold item_float; change (str "Zscale") with (str (h_name (ex_line "Zscale" (dec 5)))); rewrite GE by (cbn; tauto); unfold stored; change (kind _) with (Some TFloat); cbn [convert h_value ex_line]; rewrite F by lia; reflexivity).
  rewrite Gt. cbn [rbind]. change (sdf_item 7) with (Some 8%nat). cbv iota. unfold parse_date.
  assert (Nd : forall n, ~ In n (map h_name (ex_size (str "-7"))) -> gget d (str n) = None).
  { intros n Hn. rewrite G. apply gget_none. unfold entries. rewrite map_map. cbn [fst]. intros X. apply in_map_iff in X. destruct X as (l & El & Hin). apply PropsTable.str_inj in El. apply Hn. rewrite <- El. apply in_map. exact Hin. }
  rewrite (Nd "CreateDate"%string) by (vm_compute; intros H; repeat (destruct H as [H|H]; [discriminate H|]); exact H). cbn [rbind].
  rewrite (Nd "ModDate"%string) by (vm_compute; intros H; repeat (destruct H as [H|H]; [discriminate H|]); exact H). cbn [rbind].
  destruct (read_points_gen ex_float ex_strtod ex_nan d [10] ex_points [] 2 (-7) 2%nat 2%nat (f64_of_Z 3) (f64_of_Z 4) (f64_of_Z 5)) as (s & Es & _ & R1 & _); try assumption; try reflexivity.
  - repeat constructor; lia.
  - exact ex_points_ok.
  - intros [].
  - intros vs L. unfold reshape_np. cbn [Z.ltb Z.compare andb]. unfold zlen. rewrite L. reflexivity.
  - rewrite app_nil_r in Es. exists s, d. split; [exact Es|]. split; [|exact R1]. change (str "NumProfiles") with (str (h_name (ex_line "NumProfiles" (str "-7")))). rewrite GE by (cbn; tauto). reflexivity.
Qed.
