(** Profile.period (profile.py:272-284) and get_period_fft_1d (mathutils.py:183-208), with scipy.signal.find_peaks as scipy defines
    it.  Numbers are ideal reals; np.fft.fft is the exact discrete Fourier transform. *)
From Coq Require Import Reals List Bool Arith ZArith.
From Verif Require Import Base RList ModelMath ModelHeights ModelGeom ModelFourier.
Import ListNotations.
Local Open Scope res_scope.
Local Open Scope R_scope.

(** np.fft.fft(ydata)[k]: real part, imaginary part, modulus; mathutils.py:198 *)
Definition fft_re (y : list R) (k : nat) : R :=
  sumR (map (fun j => nth j y 0 * cos (2 * PI * (INR k * INR j / INR (length y)))) (seq 0 (length y))).
(** the imaginary part of np.fft.fft(ydata)[k], mathutils.py:198 *)
Definition fft_im (y : list R) (k : nat) : R :=
  - sumR (map (fun j => nth j y 0 * sin (2 * PI * (INR k * INR j / INR (length y)))) (seq 0 (length y))).
(** np.abs(np.fft.fft(ydata))[k], mathutils.py:198 *)
Definition fft_abs (y : list R) (k : nat) : R := sqrt (fft_re y k ^ 2 + fft_im y k ^ 2).
(** np.abs(np.fft.fft(ydata)), mathutils.py:198 *)
Definition spectrum (y : list R) : list R := map (fft_abs y) (seq 0 (length y)).

(** *** scipy.signal.find_peaks(x, distance=10, prominence=10) *)
Definition xn (x : list R) (i : nat) : R := nth i x 0.
(** _local_maxima_1d: the first position from [a] on, at most the last one, whose value differs from that of [i] *)
Fixpoint ahead (fuel : nat) (x : list R) (i a : nat) : nat :=
  match fuel with
  | O => a
  | S f => if Nat.ltb a (length x - 1) then if Req_EM_T (xn x a) (xn x i) then ahead f x i (S a) else a else a
  end.
(** a rise at [i] followed by a fall: the middle of the plateau.  scipy then goes on behind the plateau; the positions left out are
    no rises, so looking at every position gives the same list. *)
Definition local_max_at (x : list R) (i : nat) : list nat :=
  if Rlt_dec (xn x (i - 1)) (xn x i) then
    let a := ahead (length x) x i (i + 1) in
    if Rlt_dec (xn x a) (xn x i) then [Nat.div (i + (a - 1)) 2] else []
  else [].
(** scipy _local_maxima_1d, called by find_peaks in mathutils.py:200 *)
Definition local_maxima (x : list R) : list nat := flat_map (local_max_at x) (seq 1 (length x - 2)).
(** _select_by_peak_distance: from the highest peak to the lowest, a peak not yet removed removes those closer than 10 *)
Definition near (peaks : list nat) (j k : nat) : bool :=
  negb (Nat.eqb k j) && (Z.abs (Z.of_nat (nth k peaks 0%nat) - Z.of_nat (nth j peaks 0%nat)) <? 10)%Z.
(** j in l (helper for the peak selection of scipy) *)
Definition mem (j : nat) (l : list nat) : bool := existsb (Nat.eqb j) l.
(** scipy _select_by_peak_distance with distance=10, mathutils.py:200 *)
Fixpoint removed (peaks order gone : list nat) : list nat :=
  match order with
  | [] => gone
  | j :: o => removed peaks o (if mem j gone then gone else List.filter (near peaks j) (seq 0 (length peaks)) ++ gone)
  end.
(** _peak_prominences without window: the lowest value met on the way to the border or to a higher value *)
Fixpoint walk (h m : R) (xs : list R) : R :=
  match xs with [] => m | y :: ys => if Rle_dec y h then walk h (Rmin m y) ys else m end.
(** scipy _peak_prominences, mathutils.py:200 *)
Definition prominence (x : list R) (p : nat) : R :=
  xn x p - Rmax (walk (xn x p) (xn x p) (rev (firstn p x))) (walk (xn x p) (xn x p) (skipn (S p) x)).

Section Period.
(** np.argsort: some order of the indices along which the values ascend (unstable for equal values) *)
Variable argsort : list R -> list nat.
(** the peaks find_peaks keeps after the distance condition, mathutils.py:200 *)
Definition distant (x : list R) (peaks : list nat) : list nat :=
  let gone := removed peaks (rev (argsort (map (xn x) peaks))) [] in
  map (fun j => nth j peaks 0%nat) (List.filter (fun j => negb (mem j gone)) (seq 0 (length peaks))).
(** the condition prominence=10, mathutils.py:200 *)
Definition prominent (x : list R) (p : nat) : bool := if Rle_dec 10 (prominence x p) then true else false.
(** scipy.signal.find_peaks(fft, distance=10, prominence=10), mathutils.py:200 *)
Definition find_peaks (x : list R) : list nat := List.filter (prominent x) (distant x (local_maxima x)).
(** mathutils.py:183-208; the abscissae are multiples of [step], profile.py:283 *)
Definition get_period_fft_1d (step : R) (y : list R) : res R :=
  match y with
  | [] => Err ValueError                      (* no points to transform *)
  | [_] => Err IndexError                     (* xdata[1] *)
  | _ =>
      let x := spectrum y in
      let peaks := find_peaks x in
      match rev (argsort (map (prominence x) peaks)) with
      | [] => Err IndexError                  (* peaks_sorted[0] *)
      | s :: _ => Ok (1 / Rabs (fftfreq (length y) step (nth s peaks 0%nat)))
      end
  end.
(** profile.py:272-284 *)
Definition prof_period (p : prof) : res R :=
  if existsb is_nan (p_data p) then Err ValueError else get_period_fft_1d (p_step p) (measured (p_data p)).
End Period.
