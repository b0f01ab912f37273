(** C92: the report of the command line. *)
From Coq Require Import String Reals ZArith Znumtheory Bool List Lia Lra Permutation.
From Verif Require Import Base RList ModelBytes ProofBytes ModelFormats ModelGeom ProofGeom ModelDispatch ModelBatch ModelCli PropsCli PropsAl3d ModelReport.
Import ListNotations.
Local Open Scope Z_scope.
Local Open Scope list_scope.

(** a decimal number: an optional minus, digits, a point, digits *)
Definition digits (s : pystr) : Prop := s <> [] /\ Forall (fun c => 48 <= c <= 57) s.
Definition reads_as (s : pystr) (x : R) : Prop :=
  exists (minus : bool) whole frac, s = (if minus then [45] else []) ++ whole ++ 46 :: frac /\ digits whole /\ digits frac /\
    x = ((if minus then -1 else 1) * (IZR (dec_value whole) + IZR (dec_value frac) / 10 ^ length frac))%R.
Lemma dec_value_dec n : 0 <= n -> dec_value (dec n) = n /\ digits (dec n).
Proof.
  intros H. destruct (dec_spec n H) as (A & B & _). unfold int_parse in A. destruct (negb (zs_eqb (dec n) []) && forallb is_digit (dec n)) eqn:E; [|discriminate].
  injection A as A. split; [exact A|]. split; [|exact B]. intros X. rewrite X in E. discriminate.
Qed.
Lemma abs_le_inv x a : (Rabs x <= a)%R -> (- a <= x <= a)%R.
Proof. intros H. unfold Rabs in H. destruct (Rcase_abs x); lra. Qed.
Lemma pyround_nonneg x : (0 <= x)%R -> 0 <= pyround x.
Proof. intros H. pose proof (pyround_close x) as C. apply abs_le_inv in C. destruct (Z_le_gt_dec 0 (pyround x)) as [|G]; [assumption|]. assert (L : pyround x <= -1) by lia. apply IZR_le in L. exfalso. lra. Qed.
(** a printed value is a decimal number with three places, off by at most half of the last one; NaN is printed as nan *)
Theorem C92_format : forall x, exists y, reads_as (fmt3 (Some x)) y /\ (Rabs (y - x) <= 1 / 2000)%R.
Proof.
  intros x. set (q := pyround (1000 * Rabs x)). assert (Q : 0 <= q) by (apply pyround_nonneg; pose proof (Rabs_pos x); lra).
  exists ((if Rlt_dec x 0 then -1 else 1) * (IZR q / 1000))%R. split.
  - destruct (dec_value_dec (q / 1000) ltac:(apply Z.div_pos; lia)) as [D1 D2]. set (m := if Rlt_dec x 0 then true else false).
    exists m, (dec (q / 1000)), [48 + q mod 1000 / 100; 48 + q mod 100 / 10; 48 + q mod 10]. pose proof (Z.mod_pos_bound q 1000 ltac:(lia)). pose proof (Z.mod_pos_bound q 100 ltac:(lia)). pose proof (Z.mod_pos_bound q 10 ltac:(lia)).
    split; [unfold fmt3, fixed3, m; fold q; destruct (Rlt_dec x 0); reflexivity|]. split; [exact D2|]. split.
    + split; [discriminate|]. repeat constructor; try lia; apply Z.div_lt_upper_bound || apply Z.div_pos || idtac; try lia.
      all: assert (0 <= q mod 1000 / 100 < 10) by (split; [apply Z.div_pos; lia|apply Z.div_lt_upper_bound; lia]); assert (0 <= q mod 100 / 10 < 10) by (split; [apply Z.div_pos; lia|apply Z.div_lt_upper_bound; lia]); lia.
    + replace (if m then -1 else 1)%R with (if Rlt_dec x 0 then -1 else 1)%R by (unfold m; destruct (Rlt_dec x 0); reflexivity). f_equal. rewrite D1. cbn [length].
      assert (F : dec_value [48 + q mod 1000 / 100; 48 + q mod 100 / 10; 48 + q mod 10] = q mod 1000).
      { unfold dec_value. cbn [fold_left]. assert (E1 : q mod 100 = (q mod 1000) mod 100) by (apply Zmod_div_mod; [lia|lia|exists 10; reflexivity]).
        assert (E2 : q mod 10 = (q mod 1000) mod 100 mod 10) by (rewrite <- E1; apply Zmod_div_mod; [lia|lia|exists 10; reflexivity]). rewrite E2, E1.
        pose proof (Z.div_mod (q mod 1000) 100 ltac:(lia)). pose proof (Z.div_mod ((q mod 1000) mod 100) 10 ltac:(lia)). lia. }
      rewrite F. pose proof (Z.div_mod q 1000 ltac:(lia)) as E. rewrite E at 1. rewrite plus_IZR, mult_IZR. field.
  - pose proof (pyround_close (1000 * Rabs x)) as C. fold q in C. destruct (Rlt_dec x 0) as [N|N].
    + rewrite (Rabs_left x) in C by exact N. apply Rabs_le. apply abs_le_inv in C. lra.
    + rewrite (Rabs_pos_eq x) in C by lra. apply Rabs_le. apply abs_le_inv in C. lra.
Qed.
(** Not guaranteed: the printed value need not tell a surface from a plane one: below half a nanometre everything is 0.000 *)
Theorem C92_precision_refuted : forall x, (0 <= x < 1 / 2000)%R -> fmt3 (Some x) = str "0.000".
Proof.
  intros x H. unfold fmt3. destruct (Rlt_dec x 0); [lra|]. rewrite (pyround_near _ 0); [reflexivity|]. rewrite (Rabs_pos_eq x) by lra. rewrite Rminus_0_r, Rabs_pos_eq by lra. lra.
Qed.

(** *** where the reports go *)
Lemma suffix_ends p : exists a, p = a ++ path_suffix p.
Proof.
  assert (E : path_stem p ++ path_suffix p = path_name p) by apply stem_suffix. unfold path_name in E. destruct (after_last 47 p) as [t|] eqn:A.
  - apply after_last_some in A as (d & -> & _). exists (d ++ 47 :: path_stem (d ++ 47 :: t)). rewrite <- app_assoc. f_equal. rewrite <- app_comm_cons. f_equal. symmetry. exact E.
  - exists (path_stem p). symmetry. exact E.
Qed.
(** next to the file, under its whole name with .pdf appended *)
Theorem C92_output : forall file, report_output file = file ++ str ".pdf".
Proof.
  intros file. unfold report_output, with_suffix. destruct (suffix_ends file) as (a & E). set (u := path_suffix file) in *. clearbody u. subst file. rewrite app_length.
  replace (length a + length u - length u)%nat with (length a) by lia. rewrite firstn_app, Nat.sub_diag, firstn_all. cbn [firstn]. rewrite app_nil_r, app_assoc. reflexivity.
Qed.

Lemma NoDup_head {A} (l r : list A) : NoDup (l ++ r) -> NoDup l.
Proof. induction l as [|x l IH]; intros H; [constructor|]. cbn [app] in H. apply NoDup_cons_iff in H as [Hx H]. constructor; [|apply IH, H]. intros X. apply Hx, in_or_app. left. exact X. Qed.
Section Loop.
Context {St Num : Type} (load : pystr -> res St) (run : scall Num -> St -> res St) (pictures : St -> res unit)
  (call : string -> St -> res (option R)) (depth0 : St -> res (option R)).
Notation one := (report_one load run pictures call depth0).
Notation loop := (report_loop load run pictures call depth0).
(** the files are reported one after the other until one fails *)
Theorem C92_files : forall o periodic files reports e, loop o periodic files = (reports, e) ->
  exists done rest, files = done ++ rest /\ map fst reports = map (fun f => f ++ str ".pdf") done /\
    Forall2 (fun f r => one o periodic f = Ok r) done reports /\
    match e with Ok _ => rest = [] | Err x => exists f rest', rest = f :: rest' /\ one o periodic f = Err x end.
Proof.
  intros o periodic files. induction files as [|f fs IH]; intros reports e H; cbn [report_loop] in H.
  - injection H as <- <-. exists [], []. repeat split; constructor.
  - destruct (one o periodic f) as [r|x] eqn:E.
    + destruct (loop o periodic fs) as [rs e'] eqn:L. injection H as <- <-. destruct (IH _ _ eq_refl) as (done & rest & -> & M & F & X).
      exists (f :: done), rest. split; [reflexivity|]. split; [|split; [constructor; assumption|exact X]]. cbn [map]. rewrite M. f_equal.
      unfold report_one in E. repeat match type of E with rbind ?x _ = _ => destruct x; [cbn [rbind] in E|discriminate E] end. injection E as <-. apply C92_output.
    + injection H as <- <-. exists [], (f :: fs). repeat split; [constructor|]. exists f, fs. auto.
Qed.
(** different files get different reports, and no report is stored over a file or read as one *)
Theorem C92_no_overwrite : forall exts inp args periodic reports e, NoDup exts -> Permutation exts (map fst readers_by_suffix) ->
  (forall p entries, inp = InDir p entries -> NoDup (map fst entries) /\ forall n, In n (map fst entries) -> ~ In 47 n) ->
  report load run pictures call depth0 exts inp args periodic = (reports, e) ->
  NoDup (map fst reports) /\ forall out, In out (map fst reports) -> ~ In out (report_files exts inp) /\
    (exists f, In f (report_files exts inp) /\ out = f ++ str ".pdf") /\
    match inp with InFile _ => True | InDir p entries => exists n, out = join p n /\ from_dir (map fst entries ++ [n]) exts = from_dir (map fst entries) exts end.
Proof.
  intros exts inp args periodic reports e Nx Px Hin H. unfold report in H.
  destruct (Nat.ltb 1 (count_given (parse_options args))); [injection H as <- <-; split; [constructor|intros ? []]|].
  destruct (_ && _); [injection H as <- <-; split; [constructor|intros ? []]|].
  destruct (C92_files _ _ _ _ _ H) as (done & rest & Ef & M & _). rewrite M.
  assert (Nf : NoDup (report_files exts inp)).
  { destruct inp as [p|p entries]; cbn [report_files]; [repeat constructor; intros []|]. destruct (Hin p entries eq_refl) as [Ne Sl].
    destruct (C71_default (map fst entries) exts Ne Sl Px) as [Nd _]. apply FinFun.Injective_map_NoDup; [|exact Nd]. intros x y. apply join_inj. }
  assert (Inj : forall x y : pystr, x ++ str ".pdf" = y ++ str ".pdf" -> x = y) by (intros x y; apply app_inv_tail).
  assert (Pdf : forall n ext, In ext exts -> ends_with (n ++ str ".pdf") ext = false).
  { intros n ext Hx. destruct (ends_with (n ++ str ".pdf") ext) eqn:E; [|reflexivity]. exfalso. assert (Hr : In ext (map fst readers_by_suffix)) by (eapply Permutation_in; eassumption).
    assert (S1 : simple_ext (str ".pdf")) by (apply simple_extb_ok; reflexivity). assert (E2 : ends_with (n ++ str ".pdf") (str ".pdf") = true) by (apply ends_with_iff; exists n; reflexivity).
    pose proof (simple_ext_unique _ _ _ (readers_simple ext Hr) S1 E E2) as ->. revert Hr. vm_compute. intuition discriminate. }
  split.
  - rewrite Ef in Nf. apply NoDup_head in Nf. apply FinFun.Injective_map_NoDup; [exact Inj|exact Nf].
  - intros out Ho. apply in_map_iff in Ho as (f & <- & Hf). assert (Hfi : In f (report_files exts inp)) by (rewrite Ef; apply in_or_app; left; exact Hf).
    split; [|split; [exists f; auto|]].
    + destruct inp as [p|p entries]; cbn [report_files] in *.
      * intros [X|[]]. destruct Hfi as [<-|[]]. apply (f_equal (@length _)) in X. rewrite app_length in X. cbn in X. lia.
      * intros X. apply in_map_iff in Hfi as (n & <- & Hn). apply in_map_iff in X as (n' & X & Hn'). unfold join in X. rewrite <- !app_assoc in X. apply app_inv_head in X. cbn [app] in X. injection X as ->.
        unfold from_dir in Hn'. apply in_flat_map in Hn' as (ext & Hx & Hg). unfold glob in Hg. apply filter_In in Hg as [_ Hg]. rewrite Pdf in Hg by exact Hx. discriminate.
    + destruct inp as [p|p entries]; [exact Logic.I|]. cbn [report_files] in Hfi. apply in_map_iff in Hfi as (n & <- & Hn). exists (n ++ str ".pdf"). split; [unfold join; rewrite <- !app_assoc; reflexivity|].
      unfold from_dir. rewrite !flat_map_concat_map. f_equal. apply map_ext_in. intros ext Hx. unfold glob. rewrite filter_app. cbn [filter]. rewrite Pdf by exact Hx. apply app_nil_r.
Qed.
(** *** what the table says *)
(** the quantities in the table, in its order *)
Definition spatial : list string := ["Sa"; "Sq"; "Sv"; "Sp"; "Sz"]%string.
Definition functional : list string := ["Sk"; "Spk"; "Svk"]%string.
Definition shows (v : option R) (text : pystr) : Prop :=
  match v with None => text = str "nan" | Some x => exists y, reads_as text y /\ (Rabs (y - x) <= 1 / 2000)%R end.
(** the row of a quantity: its name, its value in three places, its unit *)
Definition row_shows (value : string -> res (option R)) (name : string) (r : row) : Prop :=
  exists v text unit, r = Value name text unit /\ value name = Ok v /\ shows v text /\ In (name, unit) parameter_units.
Lemma fmt_shows v : shows v (fmt3 v).
Proof. destruct v as [x|]; [apply C92_format|reflexivity]. Qed.
Lemma units_in p u : dget p parameter_units = Some u -> In (p, u) parameter_units.
Proof. generalize parameter_units. intros d. induction d as [|[k w] d IH]; cbn [dget]; [discriminate|]. destruct (String.eqb_spec p k) as [->|]; [intros [= ->]; left; reflexivity|intros H; right; auto]. Qed.
Lemma rows_ok (data : dict (option R)) ps : (forall p, In p ps -> exists v, dget p data = Some v) -> (forall p, In p ps -> exists u, dget p parameter_units = Some u) ->
  exists rs, value_rows data ps = Ok rs /\ Forall2 (row_shows (fun p => match dget p data with Some v => Ok v | None => Err KeyError end)) ps rs.
Proof.
  induction ps as [|p ps IH]; intros Hd Hu; [exists []; split; [reflexivity|constructor]|].
  destruct IH as (rs & E & F); [intros; apply Hd; right; assumption|intros; apply Hu; right; assumption|].
  destruct (Hd p (or_introl eq_refl)) as [v Ev]. destruct (Hu p (or_introl eq_refl)) as [u Eu]. exists (Value p (fmt3 v) u :: rs). split.
  - cbn [value_rows]. unfold value_row. rewrite Ev, Eu. cbn [rbind]. rewrite E. reflexivity.
  - constructor; [|exact F]. exists v, (fmt3 v), u. rewrite Ev. split; [reflexivity|]. split; [reflexivity|]. split; [apply fmt_shows|apply units_in, Eu].
Qed.
Lemma find_key (ps : list string) p : forallb (fun p => match dget p parameter_units with Some _ => true | None => false end) ps = true -> In p ps -> exists u, dget p parameter_units = Some u.
Proof. intros H Hp. rewrite forallb_forall in H. specialize (H p Hp). destruct (dget p parameter_units) as [u|]; [eauto|discriminate]. Qed.
(** the table of a surface whose parameters can all be calculated: no look-up fails *)
Theorem C92_table : forall s data periodic, fst (roughness_parameters (fun p s => (call p s, s)) available_parameters iso_parameters None s) = Ok data ->
  (periodic = None \/ exists d, periodic_data call depth0 s = Ok d /\ periodic = Some d) ->
  exists rows1 rows2 rows3, report_table data periodic = Ok (Title "ISO 25178" :: Title "Spatial" :: rows1 ++ Title "Functional" :: rows2 ++ rows3) /\
    Forall2 (row_shows (fun p => call p s)) spatial rows1 /\ Forall2 (row_shows (fun p => call p s)) functional rows2 /\
    match periodic with
    | None => rows3 = []
    | Some _ => exists r, rows3 = Title "Periodic" :: r /\
        Forall2 (row_shows (fun p => if String.eqb p "Depth" then depth0 s else call (if String.eqb p "Period" then "period" else if String.eqb p "Aspect ratio" then "aspect_ratio" else "homogeneity")%string s))
          ["Period"; "Depth"; "Aspect ratio"; "Homogeneity"]%string r
    end.
Proof.
  intros s data periodic E Hp. rewrite C66_default in E.
  pose proof (C66_roughness_parameters (fun p s => (call p s, s)) available_parameters iso_parameters (fun _ _ => eq_refl) iso_parameters s) as C. rewrite E in C. destruct C as (_ & _ & C).
  assert (K : forall ps, (forall p, In p ps -> In p iso_parameters) -> forallb (fun p => match dget p parameter_units with Some _ => true | None => false end) ps = true ->
    exists rs, value_rows data ps = Ok rs /\ Forall2 (row_shows (fun p => call p s)) ps rs).
  { intros ps Hi Hu. destruct (rows_ok data ps) as (rs & Er & Fr).
    - intros p Hq. destruct (C p (Hi p Hq)) as (_ & v & _ & Ev). eauto.
    - intros p Hq. eapply find_key; eassumption.
    - exists rs. split; [exact Er|]. clear Er Hu. induction Fr as [|p r ps rs (v & text & u & -> & Hv & Sh & Hu) Fr IH]; [constructor|]. constructor; [|apply IH; intros q Hq; apply Hi; right; exact Hq].
      exists v, text, u. repeat split; try assumption. destruct (C p (Hi p (or_introl eq_refl))) as (_ & v' & Ev & Ev'). rewrite Ev' in Hv. injection Hv as <-. exact Ev. }
  destruct (K spatial) as (r1 & E1 & F1); [intros p Hq; cbn in Hq |- *; tauto|reflexivity|]. destruct (K functional) as (r2 & E2 & F2); [intros p Hq; cbn in Hq |- *; tauto|reflexivity|].
  unfold report_table. unfold spatial in E1. unfold functional in E2. rewrite E1. cbn [rbind]. rewrite E2. cbn [rbind].
  destruct Hp as [->|(d & Ed & ->)].
  - exists r1, r2, []. split; [reflexivity|auto].
  - unfold periodic_data in Ed. destruct (call "period"%string s) as [a|] eqn:Ea; [|discriminate]. cbn [rbind] in Ed. destruct (depth0 s) as [b|] eqn:Eb; [|discriminate]. cbn [rbind] in Ed.
    destruct (call "aspect_ratio"%string s) as [x|] eqn:Ex; [|discriminate]. cbn [rbind] in Ed. destruct (call "homogeneity"%string s) as [h|] eqn:Eh; [|discriminate]. cbn [rbind] in Ed. injection Ed as <-.
    eexists r1, r2, _. split; [|split; [exact F1|split; [exact F2|]]].
    + cbn [map fst value_rows]. unfold value_row. cbn [dget String.eqb Ascii.eqb Bool.eqb parameter_units rbind]. reflexivity.
    + eexists. split; [reflexivity|]. repeat (apply Forall2_cons; [eexists _, _, _; split; [reflexivity|]; (split; [cbn [String.eqb Ascii.eqb Bool.eqb]; first [eassumption|reflexivity]|]); split; [apply fmt_shows|cbn; tauto]|]). apply Forall2_nil.
Qed.
End Loop.
(** Not guaranteed: one file that cannot be reported keeps the files after it from being reported *)
Theorem C92_all_files_refuted : exists (load : pystr -> res unit) (call : string -> unit -> res (option R)) bad good r,
  let one := report_one (Num := R) load (fun _ s => Ok s) (fun _ => Ok tt) call (fun _ => Ok None) no_opts false in
  let loop := report_loop (Num := R) load (fun _ s => Ok s) (fun _ => Ok tt) call (fun _ => Ok None) no_opts false in
  one good = Ok r /\ loop [good] = ([r], Ok tt) /\ loop [bad; good] = ([], Err ValueError).
Proof.
  exists (fun f => if zs_eqb f (str "a.sur") then Err ValueError else Ok tt), (fun _ _ => Ok (Some 0%R)), (str "a.sur"), (str "b.sur"). eexists. cbv zeta.
  assert (E : exists r, report_one (Num := R) (fun f => if zs_eqb f (str "a.sur") then Err ValueError else Ok tt) (fun _ s => Ok s) (fun _ => Ok tt) (fun _ _ => Ok (Some 0%R)) (fun _ => Ok None) no_opts false (str "b.sur") = Ok r) by (eexists; reflexivity).
  split; [reflexivity|]. split; [reflexivity|]. reflexivity.
Qed.
