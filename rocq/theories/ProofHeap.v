From Coq Require Import List Arith Bool ZArith Lia.
From Verif Require Import Base ModelHeap.
Import ListNotations.

Section HeapProofs.
Variables (X V K : Type).
Variable keqb : K -> K -> bool.
Hypothesis keqb_spec : forall a b, keqb a b = true <-> a = b.
Variable f : K -> list X -> V.
Variable dflt : X.
Notation heap := (heap X V K).
Notation hstep := (hstep X V K keqb f dflt).
Notation hrun := (hrun X V K keqb f dflt).
Notation look := (look V K keqb).
Notation heights_at := (heights_at X V K dflt).

Lemma upd_length {Y} n (y : Y) l : length (upd n y l) = length l.
Proof. revert n; induction l as [|z l IH]; intros [|n]; cbn; auto. Qed.
Lemma nth_error_upd {Y} n m (y : Y) l :
  nth_error (upd n y l) m = if Nat.eqb n m then (match nth_error l m with Some _ => Some y | None => None end)
                            else nth_error l m.
Proof.
  revert n m; induction l as [|z l IH]; intros [|n] [|m]; cbn; auto.
  - destruct (Nat.eqb n m); auto.
Qed.
Lemma nth_upd_other {Y} n m (y d : Y) l : n <> m -> nth m (upd n y l) d = nth m l d.
Proof. revert n m; induction l as [|z l IH]; intros [|n] [|m] H; cbn; auto; try lia. Qed.

(** Well-formed: windows point to existing buffers. *)
Definition wfh (h : heap) : Prop := forall i s, nth_error (surfs h) i = Some s -> s_buf s < length (bufs h).
(** Every memoised parameter belongs to the current heights. *)
Definition cohh (h : heap) : Prop := forall i s k v, nth_error (surfs h) i = Some s ->
  look k (s_cache s) = Some (CV v) -> v = f k (heights_at (bufs h) s).

Definition call_ok (h : heap) (a : haction X K) : Prop := forall i k v,
  a = HCall i k -> snd (hstep h a) = HVal v ->
  exists s, nth_error (surfs h) i = Some s /\ v = f k (heights_at (bufs h) s).

(** No other surface looks at the buffer surface [i] would write to. *)
Definition exclusive (h : heap) (i : nat) : Prop := forall s j s',
  nth_error (surfs h) i = Some s -> nth_error (surfs h) j = Some s' -> s_buf s' = s_buf s -> j = i.
Definition safe (h : heap) (a : haction X K) : Prop :=
  match a with HSet i _ _ => exclusive h i | HCachedOp _ _ _ => False | _ => True end.
(** A history all of whose item assignments are exclusive when executed. *)
Fixpoint safe_history (h : heap) (l : list (haction X K)) : Prop :=
  match l with [] => True | a :: l' => safe h a /\ safe_history (fst (hstep h a)) l' end.

Lemma heights_app bs b (s : surf V K) : s_buf s < length bs -> heights_at (bs ++ [b]) s = heights_at bs s.
Proof. intros H. unfold heights_at. rewrite app_nth1 by exact H. reflexivity. Qed.

Lemma nth_error_snoc {Y} (l : list Y) y i s : nth_error (l ++ [y]) i = Some s ->
  nth_error l i = Some s \/ (i = length l /\ s = y).
Proof.
  intros E. destruct (lt_dec i (length l)) as [L|L].
  - rewrite nth_error_app1 in E by exact L. auto.
  - rewrite nth_error_app2 in E by lia. right.
    destruct (i - length l) as [|n] eqn:En; cbn in E; [injection E as <-; split; [lia|reflexivity]|destruct n; discriminate].
Qed.

Lemma hstep_inv h a : wfh h -> cohh h -> safe h a ->
  wfh (fst (hstep h a)) /\ cohh (fst (hstep h a)) /\ call_ok h a.
Proof.
  intros W C Sf.
  assert (Cok : call_ok h a).
  { intros i k v -> E. cbn in E. destruct (nth_error (surfs h) i) as [s|] eqn:Es; [|discriminate].
    exists s. split; [reflexivity|]. destruct (look k (s_cache s)) as [[v'|j]|] eqn:El; cbn in E.
    - injection E as <-. eapply C; eauto.
    - discriminate.
    - injection E as <-. reflexivity. }
  split; [|split; [|exact Cok]]; clear Cok.
  - destruct a as [d|i k|i sel|i sel|i sel|i g|i g|i p x|i k g]; cbn in *;
      try (destruct (nth_error (surfs h) i) as [s|] eqn:Es; [|exact W]).
    + intros j s E. apply nth_error_snoc in E as [E|[_ ->]]; cbn; rewrite app_length; cbn; [apply W in E|]; lia.
    + destruct (look k (s_cache s)) as [[v'|j]|]; try exact W.
      intros j s' E. cbn in E. rewrite nth_error_upd in E. destruct (Nat.eqb_spec i j) as [->|N].
      * rewrite Es in E. injection E as <-. cbn. apply (W _ _ Es).
      * apply (W _ _ E).
    + intros j s' E. cbn in *. apply nth_error_snoc in E as [E|[_ ->]]; cbn; eauto.
    + intros j s' E. cbn in *. apply nth_error_snoc in E as [E|[_ ->]]; cbn; eauto.
    + intros j s' E. cbn in *. rewrite nth_error_upd in E. destruct (Nat.eqb_spec i j) as [->|N].
      * rewrite Es in E. injection E as <-. cbn. apply (W _ _ Es).
      * apply (W _ _ E).
    + intros j s' E. cbn in *. rewrite app_length; cbn. apply nth_error_snoc in E as [E|[_ ->]]; cbn; [apply W in E|]; lia.
    + intros j s' E. cbn in *. rewrite app_length; cbn. rewrite nth_error_upd in E. destruct (Nat.eqb_spec i j) as [->|N].
      * rewrite Es in E. injection E as <-. cbn. lia.
      * apply W in E. lia.
    + destruct (negb (s_writable s)); [exact W|].
      destruct (nth_error (s_idx s) p) as [cell|]; [|exact W].
      intros j s' E. cbn in *. rewrite upd_length. rewrite nth_error_upd in E. destruct (Nat.eqb_spec i j) as [->|N].
      * rewrite Es in E. injection E as <-. cbn. apply (W _ _ Es).
      * apply (W _ _ E).
    + contradiction.
  - destruct a as [d|i k|i sel|i sel|i sel|i g|i g|i p x|i k g]; cbn in *;
      try (destruct (nth_error (surfs h) i) as [s|] eqn:Es; [|exact C]).
    + intros j s k v E El. cbn in *. apply nth_error_snoc in E as [E|[_ ->]]; [|discriminate El].
      rewrite heights_app by (eapply W; eauto). eapply C; eauto.
    + destruct (look k (s_cache s)) as [[v'|j]|] eqn:Elk; try exact C.
      intros j s' k' v E El. cbn in *. rewrite nth_error_upd in E. destruct (Nat.eqb_spec i j) as [->|N].
      * rewrite Es in E. injection E as <-. cbn in *.
        destruct (keqb k' k) eqn:Ek.
        -- injection El as <-. apply keqb_spec in Ek. subst. reflexivity.
        -- exact (C _ _ _ _ Es El).
      * eapply C; eauto.
    + intros j s' k' v E El. cbn in *. apply nth_error_snoc in E as [E|[_ ->]]; [|discriminate El]. eapply C; eauto.
    + intros j s' k' v E El. cbn in *. apply nth_error_snoc in E as [E|[_ ->]]; [|discriminate El]. eapply C; eauto.
    + intros j s' k' v E El. cbn in *. rewrite nth_error_upd in E. destruct (Nat.eqb_spec i j) as [->|N].
      * rewrite Es in E. injection E as <-. discriminate El.
      * eapply C; eauto.
    + intros j s' k' v E El. cbn in *. apply nth_error_snoc in E as [E|[_ ->]]; [|discriminate El].
      rewrite heights_app by (eapply W; eauto). eapply C; eauto.
    + intros j s' k' v E El. cbn in *. rewrite nth_error_upd in E. destruct (Nat.eqb_spec i j) as [->|N].
      * rewrite Es in E. injection E as <-. discriminate El.
      * rewrite heights_app by (eapply W; eauto). eapply C; eauto.
    + destruct (negb (s_writable s)); [exact C|].
      destruct (nth_error (s_idx s) p) as [cell|]; [|exact C].
      intros j s' k' v E El. cbn in *. rewrite nth_error_upd in E. destruct (Nat.eqb_spec i j) as [->|N].
      * rewrite Es in E. injection E as <-. discriminate El.
      * assert (Hne : s_buf s' <> s_buf s) by (intros Eb; apply N; symmetry; eapply Sf; eauto).
        unfold heights_at. rewrite nth_upd_other by auto. exact (C _ _ _ _ E El).
    + contradiction.
Qed.

Lemma hrun_correct l : forall h, wfh h -> cohh h -> safe_history h l ->
  forall n i k v, nth_error l n = Some (HCall i k) -> nth_error (snd (hrun h l)) n = Some (HVal v) ->
  exists s, let h' := fst (hrun h (firstn n l)) in
    nth_error (surfs h') i = Some s /\ v = f k (heights_at (bufs h') s).
Proof.
  induction l as [|a l IH]; intros h W C Sf n i k v En Ev; [destruct n; discriminate|].
  destruct Sf as [Sa Sl]. destruct (hstep_inv h a W C Sa) as (W1 & C1 & Ok1).
  destruct n as [|n].
  - cbn [nth_error] in En. injection En as ->. cbn [firstn ModelHeap.hrun] in *.
    unfold call_ok in Ok1. destruct (hstep h (HCall i k)) as [h1 o] eqn:E1.
    destruct (hrun h1 l) as [h2 os]. cbn in Ev. injection Ev as ->.
    destruct (Ok1 i k v eq_refl eq_refl) as (s & Es & Hv). exists s. cbn. auto.
  - cbn [nth_error] in En. cbn [firstn ModelHeap.hrun] in *.
    destruct (hstep h a) as [h1 o] eqn:E1. cbn [fst] in *.
    specialize (IH h1 W1 C1 Sl n i k v En).
    destruct (hrun h1 l) as [h2 os] eqn:E2. cbn in Ev.
    destruct (IH Ev) as (s & Hs).
    exists s. destruct (hrun h1 (firstn n l)) as [h3 os3]. exact Hs.
Qed.

Lemma hinit_ok : wfh (hinit X V K) /\ cohh (hinit X V K).
Proof. split; intros i s; destruct i; discriminate. Qed.

(** Cropped/zoomed surfaces cannot be written through: the edit raises and nothing changes. *)
Lemma hset_readonly h i s p x : nth_error (surfs h) i = Some s -> s_writable s = false ->
  hstep h (HSet i p x) = (h, HErr ValueError).
Proof. intros E Hw. cbn. rewrite E, Hw. reflexivity. Qed.
End HeapProofs.
