(** Archives, XML elements and texts: the helpers of the X3P and PLUX readers against their specification. *)
From Coq Require Import String Ascii ZArith Lia Bool.
From Coq Require Import List.
From Flocq Require Import IEEE754.BinarySingleNaN IEEE754.Binary IEEE754.Bits.
From Verif Require Import Base ModelBytes ModelUnits ModelSur ModelFormats ModelReaders ModelGwy ModelZip SpecReaders SpecZip ProofBytes PropsMagic PropsLayout ProofReaders.
Import ListNotations.
Local Open Scope list_scope.
Local Open Scope Z_scope.

(** ** Archives *)
Lemma member_iff a name b : amember a name = Ok b <-> holds a name b.
Proof.
  unfold amember, holds. induction a as [|[n x] a IH] using rev_ind.
  - cbn. split; [discriminate|]. intros (be & af & E & _). destruct be; discriminate.
  - rewrite rev_app_distr. cbn [rev app find]. destruct (zs_eqb name n) eqn:Z.
    + apply zs_eqb_eq in Z. subst n. split.
      * intros H. apply ok_inj in H. subst x. exists a, []. cbn. auto.
      * intros (be & af & E & N). destruct af as [|[n' x'] af _] using rev_ind.
        -- apply app_inj_tail in E as [_ E]. apply (f_equal snd) in E. cbn in E. rewrite E. reflexivity.
        -- rewrite app_comm_cons, app_assoc in E. apply app_inj_tail in E as [_ E]. apply (f_equal fst) in E. cbn in E. subst n'. exfalso. apply N. rewrite map_app. apply in_or_app. right. left. reflexivity.
    + rewrite IH. split; intros (be & af & E & N).
      * subst a. exists be, (af ++ [(n, x)]). split; [rewrite <- app_assoc; reflexivity|]. rewrite map_app. intros F. apply in_app_or in F as [F|[F|[]]]; [exact (N F)|].
        cbn in F. subst n. rewrite zs_eqb_refl in Z. discriminate.
      * destruct af as [|[n' x'] af _] using rev_ind.
        -- apply app_inj_tail in E as [_ E]. apply (f_equal fst) in E. cbn in E. subst n. rewrite zs_eqb_refl in Z. discriminate.
        -- rewrite app_comm_cons, app_assoc in E. apply app_inj_tail in E as [E _]. exists be, af. split; [exact E|]. intros F. apply N. rewrite map_app. apply in_or_app. left. exact F.
Qed.
Lemma member_in a name : (exists b, amember a name = Ok b) <-> In name (map fst a).
Proof.
  induction a as [|[n x] a IH] using rev_ind; [split; [intros (b & H); discriminate|intros []]|].
  unfold amember. rewrite rev_app_distr, map_app. cbn [rev app find]. destruct (zs_eqb name n) eqn:Z.
  - apply zs_eqb_eq in Z. subst n. split; [intros _; apply in_or_app; right; left; reflexivity|eauto].
  - fold (amember a name). rewrite IH. split; [intros H; apply in_or_app; auto|]. intros H. apply in_app_or in H as [H|[H|[]]]; [exact H|]. cbn in H. subst n.
    rewrite zs_eqb_refl in Z. discriminate.
Qed.
Lemma has_iff a name : has a name = true <-> exists b, holds a (str name) b.
Proof.
  unfold has, namelist. rewrite existsb_exists. split.
  - intros (n & H1 & H2). apply zs_eqb_eq in H2. subst n. apply member_in in H1 as (b & H). exists b. apply member_iff, H.
  - intros (b & H). exists (str name). split; [|apply zs_eqb_refl]. apply member_in. exists b. apply member_iff, H.
Qed.
Lemma holds_unique a name b b' : holds a name b -> holds a name b' -> b = b'.
Proof. intros H H'. apply member_iff in H, H'. congruence. Qed.

(** ** Elements *)
Lemma earlier_asym p q : earlier p q -> earlier q p -> False.
Proof. intros H. induction H; intros F; inversion F; subst; try lia; auto. Qed.
Lemma earlier_irrefl p : ~ earlier p p.
Proof. induction p; intros F; inversion F; subst; [lia|auto]. Qed.
Lemma earlier_trans p q r : earlier p q -> earlier q r -> earlier p r.
Proof.
  intros H. revert r. induction H; intros r F; inversion F; subst; try (constructor; lia || auto; fail).
  all: try (apply earlier_before; lia). all: apply earlier_within; auto.
Qed.
Lemma leads_unique e tags tags' pos c d : leads e tags pos c -> leads e tags' pos d -> c = d /\ tags = tags'.
Proof.
  intros H. revert tags' d. induction H as [|e c i tags pos d0 H1 H2 IH]; intros tags' d F.
  - inversion F; subst. auto.
  - inversion F as [|? c' ? tags'' ? ? N L]; subst. rewrite H1 in N. injection N as <-. destruct (IH _ _ L) as [-> ->]. auto.
Qed.
Lemma flat_map_first {A B} (f : A -> list B) : forall l c r, flat_map f l = c :: r ->
  exists i x r', nth_error l i = Some x /\ f x = c :: r' /\ forall j y, (j < i)%nat -> nth_error l j = Some y -> f y = [].
Proof.
  induction l as [|x l IH]; cbn; intros c r H; [discriminate|]. destruct (f x) as [|b fx] eqn:E.
  - destruct (IH _ _ H) as (i & y & r' & H1 & H2 & H3). exists (S i), y, r'. split; [exact H1|]. split; [exact H2|].
    intros [|j] z L Hz; [injection Hz as <-; exact E|]. apply (H3 j z ltac:(lia) Hz).
  - injection H as -> H. exists 0%nat, x, fx. split; [reflexivity|]. split; [exact E|]. intros j y L. lia.
Qed.
Lemma reached_none : forall path e, reached e path = [] -> forall pos d, ~ leads e path pos d.
Proof.
  induction path as [|t p IH]; intros e H pos d F; [discriminate H|]. inversion F as [|? c i ? pos' ? N L]; subst. cbn [reached] in H.
  assert (K : forall l i, nth_error l i = Some c -> flat_map (fun c0 => if zs_eqb (etag c0) (etag c) then reached c0 p else []) l = [] -> reached c p = []).
  { induction l as [|x l IHl]; intros [|j] Hn Hf; cbn in *; try discriminate.
    - injection Hn as ->. rewrite zs_eqb_refl in Hf. apply app_eq_nil in Hf. tauto.
    - apply app_eq_nil in Hf as [_ Hf]. eauto. }
  exact (IH _ (K _ _ N H) _ _ L).
Qed.
Lemma reached_first : forall path e c r, reached e path = c :: r ->
  exists pos, leads e path pos c /\ forall pos' d, leads e path pos' d -> pos' = pos \/ earlier pos pos'.
Proof.
  induction path as [|t p IH]; intros e c r H; cbn [reached] in H.
  - injection H as -> _. exists []. split; [constructor|]. intros pos' d F. inversion F; subst. auto.
  - apply flat_map_first in H as (i & x & r' & H1 & H2 & H3). destruct (zs_eqb (etag x) t) eqn:Z; [|discriminate]. apply zs_eqb_eq in Z. subst t.
    destruct (IH _ _ _ H2) as (pos & P1 & P2). exists (i :: pos). split; [econstructor; eassumption|].
    intros pos' d F. inversion F as [|? c' j ? pos'' ? N L E1 E2 E3]; subst. assert (Et : etag c' = etag x) by congruence. destruct (Nat.lt_trichotomy i j) as [Lt|[Eq|Lt]].
    + right. apply earlier_before, Lt.
    + subst j. rewrite H1 in N. injection N as <-. destruct (P2 _ _ L) as [->|G]; [auto|]. right. apply earlier_within, G.
    + exfalso. pose proof (H3 j c' Lt N) as G. rewrite Et, zs_eqb_refl in G. exact (reached_none _ _ G _ _ L).
Qed.
Lemma find_iff e path c : efind e path = Some c <-> first_at e path c.
Proof.
  unfold efind, first_at. split.
  - destruct (reached e (map str path)) as [|x r] eqn:E; [discriminate|]. intros H. injection H as ->. exact (reached_first _ _ _ _ E).
  - intros (pos & H1 & H2). destruct (reached e (map str path)) as [|x r] eqn:E; [exfalso; exact (reached_none _ _ E _ _ H1)|].
    destruct (reached_first _ _ _ _ E) as (pos' & P1 & P2). f_equal.
    destruct (H2 _ _ P1) as [->|G1]; [exact (proj1 (leads_unique _ _ _ _ _ _ P1 H1))|]. destruct (P2 _ _ H1) as [->|G2]; [exact (proj1 (leads_unique _ _ _ _ _ _ P1 H1))|].
    exfalso. exact (earlier_asym _ _ G1 G2).
Qed.
Lemma first_unique e path c d : first_at e path c -> first_at e path d -> c = d.
Proof. intros H H'. apply find_iff in H, H'. congruence. Qed.
Lemma the_iff {A} (o : option A) x : the o = Ok x <-> o = Some x.
Proof. destruct o; cbn; split; intros H; try discriminate; congruence. Qed.
Lemma text_iff e path s : text_at e path = Ok (Some s) <-> says e path s.
Proof.
  unfold text_at, says. split.
  - intros H. apply rmap_ok in H as (c & H1 & H2). apply the_iff, find_iff in H1. eauto.
  - intros (c & H1 & H2). apply find_iff in H1. rewrite H1. cbn. rewrite H2. reflexivity.
Qed.
Lemma given_iff {A} e path (f : pystr -> res A) x : rbind (text_at e path) (given f) = Ok x <-> exists s, says e path s /\ f s = Ok x.
Proof.
  split.
  - intros H. apply rbind_ok in H as ([s|] & H1 & H2); [|discriminate]. apply text_iff in H1. eauto.
  - intros (s & H1 & H2). apply text_iff in H1. rewrite H1. exact H2.
Qed.

(** ** Texts *)
Lemma space_iff c : space c = true <-> In c spaces.
Proof.
  split.
  - unfold space, spaces. rewrite !orb_true_iff, !andb_true_iff, existsb_exists, !Z.leb_le. intros [[[H|H]|(x & H & E)]|H].
    + assert (c = 9 \/ c = 10 \/ c = 11 \/ c = 12 \/ c = 13) as [->|[->|[->|[->| ->]]]] by lia; cbn; tauto.
    + assert (c = 28 \/ c = 29 \/ c = 30 \/ c = 31 \/ c = 32) as [->|[->|[->|[->| ->]]]] by lia; cbn; tauto.
    + apply Z.eqb_eq in E. subst x. cbn in H |- *. tauto.
    + assert (c = 8192 \/ c = 8193 \/ c = 8194 \/ c = 8195 \/ c = 8196 \/ c = 8197 \/ c = 8198 \/ c = 8199 \/ c = 8200 \/ c = 8201 \/ c = 8202)
        as [->|[->|[->|[->|[->|[->|[->|[->|[->|[->| ->]]]]]]]]]] by lia; cbn; tauto.
  - intros H. cbn in H. repeat (destruct H as [<-|H]; [reflexivity|]). destruct H.
Qed.
Lemma space_false c : space c = false <-> ~ In c spaces.
Proof. rewrite <- space_iff. destruct (space c); split; congruence. Qed.
Lemma lstrip_spec s : exists a, s = a ++ lstrip s /\ blank a /\ (lstrip s = [] \/ starts_dark (lstrip s)).
Proof.
  induction s as [|c s IH]; [exists []; cbn; repeat split; [constructor|auto]|]. cbn [lstrip]. destruct (space c) eqn:S.
  - destruct IH as (a & E & B & H). exists (c :: a). split; [cbn; congruence|]. split; [|exact H]. constructor; [apply space_iff, S|exact B].
  - exists []. split; [reflexivity|]. split; [constructor|]. right. cbn. apply space_false, S.
Qed.
Lemma lstrip_blank a s : blank a -> lstrip (a ++ s) = lstrip s.
Proof. intros H. induction H as [|c a Hc Ha IH]; [reflexivity|]. cbn. rewrite (proj2 (space_iff c) Hc). exact IH. Qed.
Lemma lstrip_dark s : starts_dark s -> lstrip s = s.
Proof. destruct s as [|c s]; [intros []|]. cbn. intros H. rewrite (proj2 (space_false c) H). reflexivity. Qed.
Lemma blank_rev s : blank s -> blank (rev s).
Proof. intros H. apply Forall_rev, H. Qed.
Lemma strip_trimmed t s : trimmed t s <-> strip t = s /\ s <> [].
Proof.
  unfold strip. split.
  - intros (a & b & -> & Ha & Hb & D1 & D2). split; [|destruct s; [destruct D1|discriminate]].
    rewrite lstrip_blank by exact Ha. assert (E : lstrip (s ++ b) = s ++ b) by (apply lstrip_dark; destruct s; [destruct D1|exact D1]).
    rewrite E, rev_app_distr, lstrip_blank by (apply blank_rev, Hb). rewrite (lstrip_dark _ D2). apply rev_involutive.
  - intros [E N]. destruct (lstrip_spec t) as (a & E1 & B1 & D1). destruct (lstrip_spec (rev (lstrip t))) as (b & E2 & B2 & D2).
    set (m := lstrip t) in *. set (r := lstrip (rev m)) in *. exists a, (rev b).
    assert (Em : m = s ++ rev b) by (rewrite <- E, <- (rev_involutive m), E2, rev_app_distr; reflexivity).
    split; [rewrite E1, Em; reflexivity|]. split; [exact B1|]. split; [apply blank_rev, B2|]. split.
    + destruct D1 as [D1|D1]; [rewrite D1 in Em; destruct s; [congruence|discriminate]|]. rewrite Em in D1. destruct s; [congruence|exact D1].
    + rewrite <- E, rev_involutive. destruct D2 as [D2|D2]; [|exact D2]. rewrite D2 in E. cbn in E. congruence.
Qed.
Lemma strip_nil t : strip t = [] <-> blank t.
Proof.
  unfold strip. split.
  - intros H. destruct (lstrip_spec t) as (a & E1 & B1 & D1). destruct (lstrip_spec (rev (lstrip t))) as (b & E2 & B2 & D2).
    assert (R : lstrip (rev (lstrip t)) = []) by (rewrite <- (rev_involutive (lstrip (rev (lstrip t)))), H; reflexivity).
    rewrite R, app_nil_r in E2. rewrite E1. apply Forall_app. split; [exact B1|]. rewrite <- (rev_involutive (lstrip t)), E2. apply blank_rev, B2.
  - intros H. rewrite <- (app_nil_r t), lstrip_blank by exact H. reflexivity.
Qed.
Lemma word_spec : forall s, exists b, s = word s ++ b /\ Forall (fun c => ~ In c spaces) (word s) /\ (b = [] \/ exists c b', b = c :: b' /\ In c spaces).
Proof.
  induction s as [|c s IH]; [exists []; cbn; auto|]. cbn [word]. destruct (space c) eqn:S.
  - exists (c :: s). split; [reflexivity|]. split; [constructor|]. right. exists c, s. split; [reflexivity|]. apply space_iff, S.
  - destruct IH as (b & E & D & H). exists b. split; [cbn; congruence|]. split; [|exact H]. constructor; [apply space_false, S|exact D].
Qed.
Lemma word_ok w b : Forall (fun c => ~ In c spaces) w -> (b = [] \/ exists c b', b = c :: b' /\ In c spaces) -> word (w ++ b) = w.
Proof.
  intros H B. induction H as [|c w Hc Hw IH]; cbn.
  - destruct B as [->|(c & b' & -> & Hc)]; [reflexivity|]. cbn. rewrite (proj2 (space_iff c) Hc). reflexivity.
  - rewrite (proj2 (space_false c) Hc). congruence.
Qed.
Lemma first_word_iff s w : first_word s = Ok w <-> begins_with_word s w.
Proof.
  unfold first_word, begins_with_word. split.
  - intros H. destruct (lstrip_spec s) as (a & E & B & D). destruct (lstrip s) as [|c r] eqn:L; [discriminate|]. apply ok_inj in H.
    destruct D as [D|D]; [discriminate|]. destruct (word_spec (c :: r)) as (b & E2 & D2 & B2). rewrite H in E2, D2. exists a, b.
    split; [congruence|]. split; [exact B|]. split; [|auto]. intros ->. cbn in H. cbn in D. rewrite (proj2 (space_false c) D) in H. discriminate.
  - intros (a & b & -> & Ba & N & D & Bb). rewrite lstrip_blank by exact Ba. destruct w as [|c w]; [congruence|].
    rewrite lstrip_dark by (inversion D; assumption). cbn [app]. f_equal. apply (word_ok (c :: w) b D Bb).
Qed.
(** the hash is that of the whole file *)
Lemma hashed_all b : forall fuel p acc, (p <= length b)%nat -> (length b - p < fuel)%nat -> hashed fuel acc {| contents := b; pos := p |} = acc ++ skipn p b.
Proof.
  induction fuel as [|n IH]; intros p acc L F; [lia|]. cbn [hashed]. rewrite fread_slice. destruct (Nat.eq_dec p (length b)) as [->|Ne].
  - assert (E : slice (length b) 4096 b = []) by (apply length_zero_iff_nil; rewrite slice_length; lia). rewrite E, skipn_all, app_nil_r. reflexivity.
  - pose proof (slice_length p 4096 b) as S. assert (S0 : (1 <= length (slice p 4096 b))%nat) by (rewrite S; apply Nat.min_glb; [apply Nat.leb_le; reflexivity|lia]).
    destruct (slice p 4096 b) as [|x c] eqn:E; [cbn in S0; lia|]. rewrite <- E.
    rewrite IH; [|rewrite slice_length; lia|rewrite slice_length; rewrite <- S in *; cbn in *; lia].
    rewrite <- app_assoc. f_equal. rewrite slice_length. unfold slice.
    transitivity (firstn 4096 (skipn p b) ++ skipn 4096 (skipn p b)); [f_equal|apply firstn_skipn].
    rewrite PropsFits.skipn_skipn. destruct (Nat.le_gt_cases (4096 + p) (length b)) as [M|M].
    + f_equal. lia.
    + rewrite !skipn_all2; [reflexivity|lia|lia].
Qed.
Lemma md5_whole py b : md5_of py b = md5 py b.
Proof. unfold md5_of. rewrite hashed_all by lia. reflexivity. Qed.
