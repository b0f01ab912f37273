(** Reading the cards and the extensions of a FITS file. *)
From Coq Require Import String ZArith List Bool Lia.
From Verif Require Import Base ModelBytes ModelUnits ModelSur ModelFormats ModelFits ModelFitsSurface SpecReaders SpecFits ProofBytes PropsSdf PropsTmd PropsAl3d PropsFits.
Import ListNotations.
Local Open Scope Z_scope.
Local Open Scope list_scope.

Lemma is_space_white c : is_space c = true <-> white c.
Proof. unfold is_space, white. destruct (Z.eqb_spec c 32), (Z.leb_spec 9 c), (Z.leb_spec c 13), (Z.leb_spec 28 c), (Z.leb_spec c 31); cbn; split; intros; try congruence; try lia. Qed.
Lemma not_white c : ~ white c -> is_space c = false.
Proof. intros H. destruct (is_space c) eqn:E; [|reflexivity]. apply is_space_white in E. contradiction. Qed.
Lemma rstrip_app p a b : rstrip p (a ++ b) = match rstrip p b with [] => rstrip p a | t => a ++ t end.
Proof.
  induction a as [|c a IH]; cbn [app rstrip]; [destruct (rstrip p b); reflexivity|]. rewrite IH. destruct (rstrip p b) as [|x t]; [reflexivity|]. destruct (a ++ x :: t) eqn:E; [destruct a; discriminate E|reflexivity].
Qed.
Lemma rstrip_spaces n : rstrip is_space (spaces n) = [].
Proof. apply rstrip_all. apply Forall_forall. intros c H. apply repeat_spec in H. subst c. reflexivity. Qed.
Lemma rstrip_dark p c t : p c = false -> rstrip p (c :: t) = c :: rstrip p t.
Proof. intros H. cbn [rstrip]. destruct (rstrip p t); [rewrite H|]; reflexivity. Qed.
Lemma rstrip_last p s : (forall c, hd_error (rev s) = Some c -> p c = false) -> rstrip p s = s.
Proof.
  intros H. induction s as [|c s IH]; [reflexivity|]. cbn [rstrip]. rewrite IH.
  - destruct s as [|x s]; [|reflexivity]. rewrite H; reflexivity.
  - intros x E. apply H. cbn [rev]. destruct (rev s); [discriminate E|exact E].
Qed.
Lemma trimmed_rstrip s : trimmed s -> rstrip is_space s = s.
Proof. intros [_ H]. apply rstrip_last. intros c E. apply not_white, H, E. Qed.
Lemma lstrip_spaces n s : lstrip (spaces n ++ s) = lstrip s.
Proof. induction n as [|n IH]; [reflexivity|exact IH]. Qed.
Lemma trimmed_lstrip s : trimmed s -> lstrip s = s.
Proof. intros [H _]. destruct s as [|c s]; [reflexivity|]. cbn [lstrip]. rewrite not_white by (apply H; reflexivity). reflexivity. Qed.
Lemma lstrip_none n : lstrip (spaces n) = []. Proof. induction n as [|n IH]; [reflexivity|exact IH]. Qed.
Lemma rstrip_around s n : trimmed s -> rstrip is_space (s ++ spaces n) = s.
Proof. intros H. rewrite rstrip_app, rstrip_spaces. apply trimmed_rstrip, H. Qed.
Lemma strip_around s m n : trimmed s -> strip (spaces m ++ s ++ spaces n) = s.
Proof.
  intros H. unfold strip. rewrite lstrip_spaces. destruct s as [|c s]; [cbn [app]; rewrite lstrip_none; reflexivity|].
  cbn [app lstrip]. rewrite not_white by (apply (proj1 H); reflexivity). apply (rstrip_around (c :: s) n H).
Qed.
Lemma strip_cut s m n : trimmed s -> strip (rstrip is_space (spaces m ++ s ++ spaces n)) = s.
Proof.
  intros H. rewrite rstrip_app, (rstrip_around s n H). destruct s as [|c s]; [rewrite rstrip_spaces; reflexivity|].
  pose proof (strip_around (c :: s) m 0 H) as Q. unfold spaces at 2 in Q. cbn [repeat] in Q. rewrite app_nil_r in Q. exact Q.
Qed.
Lemma spaces_free n c : c <> 32 -> ~ In c (spaces n).
Proof. intros H I. apply repeat_spec in I. congruence. Qed.
Lemma split_first a b : ~ In 47 a -> hd [] (split_on 47 (a ++ 47 :: b)) = a.
Proof. intros H. rewrite split_on_app; [reflexivity|]. intros c I E. subst c. contradiction. Qed.
Lemma split_plain a : ~ In 47 a -> hd [] (split_on 47 a) = a.
Proof. intros H. rewrite split_on_none; [reflexivity|]. intros c I E. subst c. contradiction. Qed.
Lemma in_rstrip p c s : In c (rstrip p s) -> In c s.
Proof. induction s as [|x s IH]; [intros []|]. cbn [rstrip]. destruct (rstrip p s) as [|y t] eqn:E; [destruct (p x); [intros []|intros [->|[]]; left; reflexivity]|]. intros [->|H]; [left; reflexivity|right; apply IH, H]. Qed.
Lemma startsb_begins p s : startsb p s = true <-> begins p s.
Proof.
  revert s. induction p as [|x p IH]; intros s; cbn [startsb]; [split; [intros _; exists s; reflexivity|reflexivity]|]. destruct s as [|y s]; [split; [discriminate|intros [t E]; discriminate E]|].
  rewrite andb_true_iff, Z.eqb_eq, IH. unfold begins. split; [intros [-> [t ->]]; exists t; reflexivity|intros [t E]; injection E as -> ->; split; [reflexivity|exists t; reflexivity]].
Qed.
(** a prefix longer than the key would have to hold the character after it *)
Lemma begins_longer p k c t : ~ In c p -> begins p (k ++ c :: t) -> begins p k.
Proof.
  revert k. induction p as [|x p IH]; intros k H [u E]; [exists k; reflexivity|]. destruct k as [|y k].
  - cbn in E. injection E as -> _. exfalso. apply H. left. reflexivity.
  - cbn in E. injection E as -> E. destruct (IH k) as [v ->]; [intros I; apply H; right; exact I|exists u; exact E|]. exists v. reflexivity.
Qed.
Lemma remove_none f s : ~ In 32 s -> remove_all f (str "HIERARCH ") s = s.
Proof.
  revert s. induction f as [|f IH]; intros s H; [reflexivity|]. destruct s as [|c s]; [reflexivity|]. cbn [remove_all].
  destruct (startsb (str "HIERARCH ") (c :: s)) eqn:E.
  - exfalso. apply startsb_begins in E. destruct E as [t E]. apply H. rewrite E. apply in_or_app. left. cbn. tauto.
  - f_equal. apply IH. intros I. apply H. right. exact I.
Qed.
Lemma remove_prefix k : ~ In 32 k -> remove_all (length (str "HIERARCH " ++ k)) (str "HIERARCH ") (str "HIERARCH " ++ k) = k.
Proof.
  intros H. rewrite app_length. change (length (str "HIERARCH ") + length k)%nat with (S (8 + length k)). cbn [remove_all].
  destruct (str "HIERARCH " ++ k) as [|c s] eqn:E; [discriminate E|]. rewrite <- E. destruct (startsb (str "HIERARCH ") (str "HIERARCH " ++ k)) eqn:Q.
  - rewrite skipn_app, skipn_all2 by (cbn; lia). replace (length (str "HIERARCH ") - length (str "HIERARCH "))%nat with 0%nat by lia. apply (remove_none _ k H).
  - exfalso. assert (begins (str "HIERARCH ") (str "HIERARCH " ++ k)) as B by (exists k; reflexivity). apply startsb_begins in B. congruence.
Qed.

(** *** One line *)
Definition step (float_of : pystr -> res f64) (d : header) (l : card_line) : header :=
  match l with Entry _ k v _ _ _ _ => hset k (convert_dtype float_of v) d | _ => d end.
Lemma key_text (h : bool) k : trimmed k -> k <> [] -> trimmed ((if h then str "HIERARCH " else []) ++ k).
Proof.
  intros [H1 H2] Hk. destruct h; [|exact (conj H1 H2)]. split.
  - intros c [= <-]. intros [E|E]; lia.
  - intros c E. rewrite rev_app_distr in E. destruct (rev k) as [|x t] eqn:R; [apply (f_equal (@rev Z)) in R; rewrite rev_involutive in R; contradiction|]. apply H2. exact E.
Qed.
Lemma parse_line float_of l ls d : good_line l -> parse_cards float_of (rstrip is_space (line_text l) :: ls) d = parse_cards float_of ls (step float_of d l).
Proof.
  intros (_ & _ & G). destruct l as [h k v g1 g2 g3 r|t|].
  - destruct G as (K0 & (Kt & K1 & K2) & (Vt & V1 & V2) & Kh). cbn [line_text step].
    set (K := (if h then str "HIERARCH " else []) ++ k).
    assert (KK : trimmed K) by (unfold K; apply key_text; assumption).
    assert (K61 : ~ In 61 K) by (unfold K; intros I; apply in_app_or in I; destruct I as [I|I]; [destruct h; [cbn in I; lia|contradiction]|contradiction]).
    assert (K47 : ~ In 47 K) by (unfold K; intros I; apply in_app_or in I; destruct I as [I|I]; [destruct h; [cbn in I; lia|contradiction]|contradiction]).
    set (a := spaces g2 ++ v ++ spaces g3).
    assert (A47 : ~ In 47 (K ++ spaces g1 ++ [61] ++ a)).
    { unfold a. intros I. rewrite !in_app_iff in I. destruct I as [I|[I|[I|[I|[I|I]]]]]; try contradiction; [apply spaces_free in I; [contradiction|lia]|cbn in I; lia|apply spaces_free in I; [contradiction|lia]|apply spaces_free in I; [contradiction|lia]]. }
    assert (A61 : ~ In 61 a). { unfold a. intros I. rewrite !in_app_iff in I. destruct I as [I|[I|I]]; try contradiction; (apply spaces_free in I; [contradiction|lia]). }
    (* the part before the remark *)
    assert (L : exists a', hd [] (split_on 47 (rstrip is_space (K ++ spaces g1 ++ [61] ++ spaces g2 ++ v ++ spaces g3 ++ match r with Some t => 47 :: t | None => [] end))) = K ++ spaces g1 ++ 61 :: a' /\ strip a' = v /\ ~ In 61 a' /\
                           exists t, rstrip is_space (K ++ spaces g1 ++ [61] ++ spaces g2 ++ v ++ spaces g3 ++ match r with Some t => 47 :: t | None => [] end) = K ++ spaces g1 ++ 61 :: t).
    { destruct r as [t|].
      - exists a. replace (K ++ spaces g1 ++ [61] ++ spaces g2 ++ v ++ spaces g3 ++ 47 :: t) with ((K ++ spaces g1 ++ [61] ++ a) ++ 47 :: t) by (unfold a; rewrite <- !app_assoc; reflexivity).
        rewrite rstrip_app, rstrip_dark by reflexivity. rewrite split_first by exact A47. split; [reflexivity|]. split; [apply strip_around; exact Vt|]. split; [exact A61|]. eexists. rewrite <- !app_assoc. reflexivity.
      - exists (rstrip is_space a). rewrite app_nil_r. fold a. replace (K ++ spaces g1 ++ [61] ++ a) with ((K ++ spaces g1) ++ 61 :: a) by (rewrite <- app_assoc; reflexivity).
        rewrite rstrip_app, rstrip_dark by reflexivity. rewrite split_plain; [split; [rewrite <- app_assoc; reflexivity|split; [apply strip_cut; exact Vt|split; [intros I; apply in_rstrip in I; contradiction|eexists; rewrite <- app_assoc; reflexivity]]]|].
        intros I. apply A47. rewrite <- app_assoc in I. apply in_app_or in I. apply in_or_app. destruct I as [I|I]; [left; exact I|right]. apply in_app_or in I. apply in_or_app. destruct I as [I|I]; [left; exact I|right]. destruct I as [E|I]; [left; exact E|right; apply (in_rstrip is_space), I]. }
    destruct L as (a' & E1 & E2 & E3 & t & E4). set (line := rstrip is_space _) in *. rewrite app_assoc. fold K. fold line. cbn [parse_cards].
    assert (B0 : zs_eqb line [] || startsb (str "COMMENT") line = false).
    { apply orb_false_iff. rewrite E4. split.
      - destruct K as [|c K'] eqn:EK; [unfold K in EK; destruct h; [discriminate EK|]; cbn in EK; congruence|reflexivity].
      - destruct (startsb (str "COMMENT") (K ++ spaces g1 ++ 61 :: t)) eqn:Q; [|reflexivity]. exfalso. apply startsb_begins in Q. rewrite app_assoc in Q.
        assert (B : begins (str "COMMENT") (K ++ spaces g1)) by (apply (begins_longer _ _ 61 t); [cbn; lia|exact Q]).
        destruct h; [destruct B as [u B]; unfold K in B; discriminate B|]. unfold K in B. cbn [app] in B.
        apply (proj1 Kh). destruct g1 as [|g]; [unfold spaces in B; cbn [repeat] in B; rewrite app_nil_r in B; exact B|]. unfold spaces in B. cbn [repeat] in B. apply (begins_longer _ _ 32 (repeat 32 g)); [cbn; lia|exact B]. }
    rewrite B0. assert (B1 : zs_eqb line (str "END") = false).
    { destruct (zs_eqb line (str "END")) eqn:Q; [|reflexivity]. exfalso. apply zs_eqb_eq in Q. assert (I : In 61 line) by (rewrite E4; apply in_or_app; right; apply in_or_app; right; left; reflexivity). rewrite Q in I. cbn in I. lia. }
    rewrite B1, E1. rewrite (app_assoc K). rewrite split_on_app by (intros c I E; subst c; apply in_app_or in I; destruct I as [I|I]; [contradiction|apply spaces_free in I; [contradiction|lia]]).
    rewrite split_on_none by (intros c I E; subst c; contradiction). rewrite E2. change (K ++ spaces g1) with (spaces 0 ++ K ++ spaces g1). rewrite strip_around by exact KK. f_equal. f_equal.
    unfold K. destruct h; cbn [app].
    + destruct (startsb (str "HIERARCH") (str "HIERARCH " ++ k)) eqn:Q; [apply remove_prefix; exact Kh|].
      exfalso. assert (begins (str "HIERARCH") (str "HIERARCH " ++ k)) as B by (exists (32 :: k); reflexivity). apply startsb_begins in B. congruence.
    + destruct (startsb (str "HIERARCH") k) eqn:Q; [exfalso; apply startsb_begins in Q; apply (proj2 Kh), Q|reflexivity].
  - cbn [line_text step]. rewrite rstrip_app. assert (E : exists u, match rstrip is_space t with [] => rstrip is_space (str "COMMENT") | z :: l => str "COMMENT" ++ z :: l end = str "COMMENT" ++ u).
    { destruct (rstrip is_space t) as [|z l]; [exists []; reflexivity|exists (z :: l); reflexivity]. }
    destruct E as [u E]. rewrite E. cbn [parse_cards]. assert (Q : startsb (str "COMMENT") (str "COMMENT" ++ u) = true) by (apply startsb_begins; exists u; reflexivity). rewrite Q, orb_true_r. reflexivity.
  - reflexivity.
Qed.

(** *** Blocks of lines *)
Lemma lines_cut (ls : list (list Z)) rest i : (forall l, In l ls -> length l = 80%nat) -> (i < length ls)%nat -> firstn 80 (skipn (i * 80) (concat ls ++ rest)) = nth i ls [].
Proof.
  revert ls. induction i as [|i IH]; intros ls H Hi; destruct ls as [|l ls]; try (cbn in Hi; lia).
  - cbn [Nat.mul skipn concat nth]. rewrite <- app_assoc. rewrite firstn_app, (H l (or_introl eq_refl)), Nat.sub_diag. rewrite firstn_all2 by (rewrite (H l (or_introl eq_refl)); lia). cbn [firstn]. apply app_nil_r.
  - cbn [concat nth]. rewrite <- app_assoc. replace (S i * 80)%nat with (length l + i * 80)%nat by (rewrite (H l (or_introl eq_refl)); lia).
    rewrite <- skipn_skipn, skipn_app, skipn_all, Nat.sub_diag. cbn [app skipn]. apply IH; [intros x Hx; apply H; right; exact Hx|cbn in Hi; lia].
Qed.
Lemma ljust_length n s : (length s <= n)%nat -> length (ljust n s) = n.
Proof. intros H. unfold ljust. rewrite app_length, repeat_length. lia. Qed.
Lemma rstrip_ljust n s : rstrip is_space (ljust n s) = rstrip is_space s.
Proof. unfold ljust. rewrite rstrip_app. change (repeat 32 (n - length s)) with (spaces (n - length s)). rewrite rstrip_spaces. reflexivity. Qed.
Lemma lines_length ls : Forall good_line ls -> length (lines_text ls) = (length ls * 80)%nat.
Proof.
  unfold lines_text. induction 1 as [|l ls (H & _) _ IH]; [reflexivity|]. cbn [map concat]. rewrite app_length, IH, ljust_length by exact H. cbn [length]. lia.
Qed.
Lemma cards_seq (b : pystr) : cards b = map (fun i => rstrip is_space (firstn 80 (skipn (i * 80) b))) (seq 0 36). Proof. reflexivity. Qed.
Lemma list_nth_map {A} (f : nat -> A) (l : list A) d n : length l = n -> (forall i, (i < n)%nat -> f i = nth i l d) -> map f (seq 0 n) = l.
Proof.
  intros L H. apply (nth_ext _ _ d d); [rewrite map_length, seq_length; symmetry; exact L|]. intros i Hi. rewrite map_length, seq_length in Hi.
  rewrite (nth_indep _ d (f 0%nat)) by (rewrite map_length, seq_length; exact Hi). rewrite map_nth, seq_nth by exact Hi. apply H. exact Hi.
Qed.
Lemma parse_lines float_of ls tl : forall d, Forall good_line ls -> parse_cards float_of (map (fun l => rstrip is_space (line_text l)) ls ++ tl) d = parse_cards float_of tl (fold_left (step float_of) ls d).
Proof. induction ls as [|l ls IH]; intros d H; [reflexivity|]. inversion H as [|? ? Hl Hls]; subst. cbn [map app fold_left]. rewrite parse_line by exact Hl. apply IH, Hls. Qed.
Definition dict (float_of : pystr -> res f64) (ls : list card_line) : header := fold_left (step float_of) ls [].
Lemma parse_full float_of ls : good_full ls -> length (full_block ls) = 2880%nat /\ parse_header_block float_of (full_block ls) = Ok (dict float_of ls, false).
Proof.
  intros [L G]. split; [unfold full_block; rewrite lines_length, L by exact G; reflexivity|]. unfold parse_header_block. rewrite cards_seq.
  assert (EC : map (fun i => rstrip is_space (firstn 80 (skipn (i * 80) (full_block ls)))) (seq 0 36) = map (rstrip is_space) (map (fun l => ljust 80 (line_text l)) ls)).
  { apply (list_nth_map _ _ []); [rewrite !map_length; exact L|]. intros i Hi. unfold full_block, lines_text. rewrite <- (app_nil_r (concat _)), lines_cut.
    - change (@nil Z) with (rstrip is_space []) at 2. rewrite map_nth. reflexivity.
    - intros l Hl. apply in_map_iff in Hl. destruct Hl as (x & <- & Hx). apply ljust_length. rewrite Forall_forall in G. apply G, Hx.
    - rewrite map_length. lia. }
  rewrite EC, map_map. rewrite (map_ext _ (fun l => rstrip is_space (line_text l))) by (intros l; apply rstrip_ljust).
  rewrite <- (app_nil_r (map _ ls)). rewrite parse_lines by exact G. reflexivity.
Qed.
Lemma parse_last float_of ls : good_last ls -> length (last_block ls) = 2880%nat /\ parse_header_block float_of (last_block ls) = Ok (dict float_of ls, true).
Proof.
  intros [L G]. assert (LL : length (lines_text ls ++ ljust 80 (str "END")) = (S (length ls) * 80)%nat) by (rewrite app_length, lines_length by exact G; change (length (ljust 80 (str "END"))) with 80%nat; lia).
  split; [unfold last_block; apply ljust_length; lia|]. unfold parse_header_block. rewrite cards_seq.
  set (M := map (fun l => ljust 80 (line_text l)) ls ++ [ljust 80 (str "END")] ++ repeat (spaces 80) (35 - length ls)).
  assert (LM : length M = 36%nat) by (unfold M; rewrite !app_length, map_length, repeat_length; cbn [length]; lia).
  assert (L80 : forall l, In l M -> length l = 80%nat).
  { intros l Hl. unfold M in Hl. rewrite !in_app_iff in Hl. destruct Hl as [Hl|[[<-|[]]|Hl]]; [|reflexivity|apply repeat_spec in Hl; subst l; reflexivity].
    apply in_map_iff in Hl. destruct Hl as (x & <- & Hx). apply ljust_length. rewrite Forall_forall in G. apply G, Hx. }
  assert (EM : last_block ls = concat M).
  { unfold last_block, M, ljust at 1. rewrite LL. rewrite !concat_app. cbn [concat app]. rewrite app_nil_r, <- app_assoc. fold (lines_text ls). f_equal. f_equal.
    clear. induction (35 - length ls)%nat as [|k IH] eqn:E.
    - replace (2880 - S (length ls) * 80)%nat with 0%nat by lia. reflexivity.
    - replace (2880 - S (length ls) * 80)%nat with (S k * 80)%nat by lia. clear. induction (S k) as [|m IHm]; [reflexivity|]. cbn [repeat concat]. rewrite <- IHm. unfold spaces. rewrite <- repeat_app. f_equal. }
  assert (EC : map (fun i => rstrip is_space (firstn 80 (skipn (i * 80) (last_block ls)))) (seq 0 36) = map (rstrip is_space) M).
  { apply (list_nth_map _ _ []); [rewrite map_length; exact LM|]. intros i Hi. rewrite EM. rewrite <- (app_nil_r (concat M)). rewrite (lines_cut M [] i L80) by (apply (Nat.lt_le_trans _ 36); [exact Hi|apply Nat.eq_le_incl; symmetry; exact LM]). change (@nil Z) with (rstrip is_space []) at 2. rewrite map_nth. reflexivity. }
  rewrite EC. unfold M. rewrite !map_app, map_map. rewrite (map_ext _ (fun l => rstrip is_space (line_text l))) by (intros l; apply rstrip_ljust).
  rewrite parse_lines by exact G. reflexivity.
Qed.

(** *** The dictionary *)
Lemma hget_hset k k' v d : hget k (hset k' v d) = if zs_eqb k k' then Some v else hget k d.
Proof.
  induction d as [|[a b] d IH]; cbn [hset hget]; [reflexivity|]. destruct (zs_eqb k' a) eqn:E; cbn [hget].
  - apply zs_eqb_eq in E. subst a. destruct (zs_eqb k k'); reflexivity.
  - rewrite IH. destruct (zs_eqb k a) eqn:F; [|reflexivity]. apply zs_eqb_eq in F. subst a. destruct (zs_eqb k k') eqn:Q; [|reflexivity]. apply zs_eqb_eq in Q. subst k'. rewrite zs_eqb_refl in E. discriminate E.
Qed.
Lemma hget_steps float_of k ls : forall d, hget k (fold_left (step float_of) ls d) = match text_of k ls with Some t => Some (convert_dtype float_of t) | None => hget k d end.
Proof.
  induction ls as [|l ls IH]; intros d; [reflexivity|]. cbn [fold_left text_of]. rewrite IH. destruct (text_of k ls) as [t|]; [reflexivity|].
  destruct l as [h k' v g1 g2 g3 r|t|]; cbn [step]; [|reflexivity|reflexivity]. rewrite hget_hset. destruct (zs_eqb k k'); reflexivity.
Qed.
Lemma hget_dict float_of k ls : hget k (dict float_of ls) = match text_of k ls with Some t => Some (convert_dtype float_of t) | None => None end.
Proof. apply hget_steps. Qed.
Lemma text_of_app k a b : text_of k (a ++ b) = match text_of k b with Some t => Some t | None => text_of k a end.
Proof. induction a as [|l a IH]; cbn [app text_of]; [destruct (text_of k b); reflexivity|]. rewrite IH. destruct (text_of k b); reflexivity. Qed.
(** keys are distinct, so merging dictionaries is looking up in the later one first *)
Definition distinct (d : header) : Prop := NoDup (map fst d).
Lemma hset_keys k v d : forall x, In x (map fst (hset k v d)) <-> x = k \/ In x (map fst d).
Proof.
  induction d as [|[a b] d IH]; intros x; cbn [hset map fst In]; [intuition|]. destruct (zs_eqb k a) eqn:E; cbn [map fst In].
  - apply zs_eqb_eq in E. subst a. intuition.
  - rewrite IH. intuition.
Qed.
Lemma hset_distinct k v d : distinct d -> distinct (hset k v d).
Proof.
  unfold distinct. induction d as [|[a b] d IH]; cbn [hset map fst]; intros H; [constructor; [intros []|constructor]|]. inversion H as [|? ? N D]; subst. destruct (zs_eqb k a) eqn:E; cbn [map fst].
  - constructor; assumption.
  - constructor; [|apply IH, D]. intros I. apply hset_keys in I. destruct I as [->|I]; [rewrite zs_eqb_refl in E; discriminate E|contradiction].
Qed.
Lemma dict_distinct float_of ls : distinct (dict float_of ls).
Proof.
  unfold dict. assert (G : forall d, distinct d -> distinct (fold_left (step float_of) ls d)); [|apply G; constructor].
  induction ls as [|l ls IH]; intros d H; [exact H|]. cbn [fold_left]. apply IH. destruct l; [apply hset_distinct, H|exact H|exact H].
Qed.
Lemma hget_in k d : hget k d <> None -> In k (map fst d).
Proof. induction d as [|[a b] d IH]; cbn [hget map fst]; [congruence|]. destruct (zs_eqb k a) eqn:E; [apply zs_eqb_eq in E; left; congruence|intros H; right; apply IH, H]. Qed.
Lemma hget_hupdate k d' : forall d, distinct d' -> hget k (hupdate d d') = match hget k d' with Some v => Some v | None => hget k d end.
Proof.
  unfold hupdate. induction d' as [|[a b] d' IH]; intros d H; [reflexivity|]. inversion H as [|? ? N D]; subst. cbn [fold_left fst snd]. rewrite (IH _ D). cbn [hget]. rewrite hget_hset. destruct (zs_eqb k a) eqn:E; [|reflexivity].
  apply zs_eqb_eq in E. subst a. destruct (hget k d') eqn:G; [|reflexivity]. exfalso. apply N, hget_in. congruence.
Qed.

(** *** The primary header *)
Lemma ascii_lines ls : Forall good_line ls -> ascii (lines_text ls).
Proof.
  intros H. unfold lines_text. apply Forall_concat. rewrite Forall_map. eapply Forall_impl; [|exact H]. intros l (_ & A & _). unfold ljust. apply Forall_app. split; [exact A|]. apply Forall_forall. intros c I. apply repeat_spec in I. subst c. lia.
Qed.
Lemma ascii_last ls : good_last ls -> ascii (last_block ls).
Proof.
  intros [_ G]. unfold last_block, ljust at 1. apply Forall_app. split; [apply Forall_app; split; [apply ascii_lines, G|]|]; [|apply Forall_forall; intros c I; apply repeat_spec in I; subst c; lia].
  apply Forall_forall. intros c I. unfold ljust in I. apply in_app_or in I. destruct I as [I|I]; [cbn in I; lia|apply repeat_spec in I; lia].
Qed.
Lemma header_reads float_of en last : good_last last -> forall full pre rest d, Forall good_full full ->
  exists fuel d', read_header float_of fuel en d {| contents := pre ++ concat (map full_block full) ++ last_block last ++ rest; pos := length pre |} =
     Some (Ok d', {| contents := pre ++ concat (map full_block full) ++ last_block last ++ rest; pos := length (pre ++ concat (map full_block full) ++ last_block last) |}) /\
     forall k, hget k d' = match text_of k (concat full ++ last) with Some t => Some (convert_dtype float_of t) | None => hget k d end.
Proof.
  intros Gl full. induction full as [|b full IH]; intros pre rest d Gf.
  - exists 1%nat. destruct (parse_last float_of last Gl) as [L P]. cbn [map concat app read_header]. unfold header_step. replace BLOCKSIZE with (length (last_block last)) by exact L. rewrite fread_at. rewrite decode_ascii by (apply ascii_last; exact Gl).
    cbn [rbind]. rewrite P. cbn [rmap]. eexists. split; [rewrite app_length; reflexivity|]. intros k. rewrite hget_hupdate by apply dict_distinct. rewrite hget_dict. destruct (text_of k last); reflexivity.
  - inversion Gf as [|? ? Gb Gf']; subst. destruct (parse_full float_of b Gb) as [L P]. cbn [map concat]. rewrite <- !app_assoc.
    destruct (IH (pre ++ full_block b) rest (hupdate d (dict float_of b)) Gf') as (fuel & d' & E & H). exists (S fuel), d'. cbn [read_header]. unfold header_step. replace BLOCKSIZE with (length (full_block b)) by exact L.
    rewrite fread_at. rewrite decode_ascii by (apply ascii_lines; apply Gb). cbn [rbind]. rewrite P. cbn [rmap]. rewrite app_length in E. rewrite <- !app_assoc in E. rewrite E. split; [reflexivity|].
    intros k. rewrite H. rewrite !text_of_app. rewrite hget_hupdate by apply dict_distinct. rewrite hget_dict. destruct (text_of k last), (text_of k (concat full)), (text_of k b); reflexivity.
Qed.
