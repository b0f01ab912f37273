(** Tactics and lemmas shared by the proofs about the binary formats. *)
From Coq Require Import String Ascii ZArith Lia Bool Reals Lra.
From Coq Require Import List.
From Flocq Require Import Core.Core.
From Flocq Require Import IEEE754.BinarySingleNaN IEEE754.Binary IEEE754.Bits.
From Verif Require Import Base ModelBytes SpecBytes ProofBytes PropsLayout ProofFloat ModelSur ProofSur.
Import ListNotations.
Local Open Scope Z_scope.

(** a literal string without trailing blank or NUL *)
Lemma last_ok (s : pystr) : blank0 (last s 1) = false -> forall s' c, s = s' ++ [c] -> c <> 32 /\ c <> 0.
Proof.
  intros H s' c ->. rewrite last_last in H. unfold blank0 in H.
  destruct (Z.eqb_spec c 32); [discriminate|]. destruct (Z.eqb_spec c 0); [discriminate|]. auto.
Qed.
Lemma fits_lit w r n s : compatible w r ->
  (match utf8_encode s with Ok b => Nat.leb (length b) n | _ => false end) = true ->
  (match encode Latin1 s with Ok b => Nat.leb (length b) n | _ => false end) = true ->
  blank0 (last s 1) = false -> fits w n s.
Proof.
  intros C H1 H2 H3. split; [|apply last_ok; exact H3].
  destruct C as [[-> _]|[-> _]].
  - change (encode Utf8 s) with (utf8_encode s). destruct (utf8_encode s) as [b|]; [|discriminate].
    exists b. split; [reflexivity|]. apply Nat.leb_le. exact H1.
  - destruct (encode Latin1 s) as [b|]; [|discriminate]. exists b. split; [reflexivity|]. apply Nat.leb_le. exact H2.
Qed.
Lemma rb_lit w r n s : compatible w r ->
  (match utf8_encode s with Ok b => Nat.leb (length b) n | _ => false end) = true ->
  (match encode Latin1 s with Ok b => Nat.leb (length b) n | _ => false end) = true ->
  blank0 (last s 1) = false -> reads_back w r (FStr n) (VStr s) (VStr s).
Proof. intros C H1 H2 H3. constructor; [exact C|eapply fits_lit; eauto]. Qed.
Lemma rb_int_lit w r s n z : (0 < n)%nat -> in_range s n z = true -> reads_back w r (FInt s n) (VInt z) (VInt z).
Proof. intros Hn H. constructor; [exact Hn|]. apply in_range_spec, H. Qed.

Lemma hint_ok d k z : dget d k = Some (VInt z) -> hint d k = Ok z.
Proof. unfold hint, dkey. intros ->. reflexivity. Qed.
Lemma hflt_ok d k x : dget d k = Some (VFloat x) -> hflt d k = Ok x.
Proof. unfold hflt, dkey. intros ->. reflexivity. Qed.
Lemma hstr_ok d k s : dget d k = Some (VStr s) -> hstr d k = Ok s.
Proof. unfold hstr, dkey. intros ->. reflexivity. Qed.

(** a double that is at most 2^127 in magnitude is a finite single *)
Definition singleable (x : f64) : Prop := fin64 x /\ (Rabs (R64 x) <= bpow radix2 127)%R.
Lemma rb_single w r x : singleable x -> reads_back w r FF32 (VFloat x) (VFloat (f64_of_f32 (f32_of_f64 x))).
Proof.
  intros [Hx B]. constructor. intros _. apply (single_ok x 127 Hx); [lia|exact B].
Qed.
Lemma forallb_names_nodup (l : list string) :
  (fix f (l : list string) := match l with [] => true | x :: l' => negb (existsb (String.eqb x) l') && f l' end) l = true ->
  NoDup l.
Proof.
  induction l as [|x l IH]; intros H; [constructor|]. apply andb_true_iff in H as [H1 H2].
  constructor; [|apply IH; exact H2]. intros Hin. apply negb_true_iff in H1.
  assert (E : existsb (String.eqb x) l = true) by (apply existsb_exists; exists x; split; [exact Hin|apply String.eqb_refl]).
  congruence.
Qed.

Lemma frombuffer_length n b l : (0 < n)%nat -> frombuffer n b = Ok l -> (length l * n = length b)%nat.
Proof.
  intros Hn. unfold frombuffer. destruct (Nat.eqb_spec (length b mod n) 0) as [E|]; [|discriminate].
  intros H. injection H as <-. assert (Lc : forall k c, length (chunks k n c) = k) by (induction k; cbn; intros; auto).
  rewrite Lc. pose proof (Nat.div_mod (length b) n). lia.
Qed.
