(** surfalize/fourier.py: FourierTransform.  Numbers are ideal reals; np.fft.fft2 is the exact discrete Fourier transform.
    Surfaces one point wide or high (extent 0, division by zero in fftfreq) are not modelled: the theorems ask for two. *)
From Coq Require Import Reals List Bool Arith ZArith.
From Verif Require Import Base RList ModelMath ModelHeights ModelGeom ModelAcf.
Import ListNotations.
Local Open Scope res_scope.
Local Open Scope R_scope.

(** np.fft.fft2(z)[u, v]: real and imaginary part, and np.abs of it *)
Definition dft_phase (N M u v i j : nat) : R := 2 * PI * (INR u * INR i / INR N + INR v * INR j / INR M).
(** the real part of np.fft.fft2(z)[u, v], fourier.py:28-66 *)
Definition dft_re (z : nat -> nat -> R) (N M u v : nat) : R := sum2 N M (fun i j => z i j * cos (dft_phase N M u v i j)).
(** the imaginary part of np.fft.fft2(z)[u, v], fourier.py:28-66 *)
Definition dft_im (z : nat -> nat -> R) (N M u v : nat) : R := - sum2 N M (fun i j => z i j * sin (dft_phase N M u v i j)).
(** np.abs(np.fft.fft2(z))[u, v], fourier.py:28-66 *)
Definition amplitude (z : nat -> nat -> R) (N M u v : nat) : R := sqrt (dft_re z N M u v ^ 2 + dft_im z N M u v ^ 2).
(** surface.data - surface.data.mean() *)
Definition mean2 (z : nat -> nat -> R) (N M : nat) : R := sum2 N M z / (INR N * INR M).
(** surface.data - surface.data.mean(), fourier.py:28-66 *)
Definition centred (z : nat -> nat -> R) (N M i j : nat) : R := z i j - mean2 z N M.
(** np.fft.fftfreq(n, d): 0 .. (n-1)/2, then -(n/2) .. -1, over n d *)
Definition freq_int (n k : nat) : Z := if Nat.ltb k ((n - 1) / 2 + 1) then Z.of_nat k else (Z.of_nat k - Z.of_nat n)%Z.
(** np.fft.fftfreq(n, d), fourier.py:46-47, 127-128 *)
Definition fftfreq (n : nat) (d : R) (k : nat) : R := IZR (freq_int n k) * (1 / (INR n * d)).
(** np.fft.fftshift along one axis: position k of the result holds this position of the argument *)
Definition unshift (n k : nat) : nat := ((k + (n + 1) / 2) mod n)%nat.

Section Transform.
(** height data and pixel sizes of a surface *)
Variables (g : grid) (sx sy : R).
(** the number of rows, fourier.py:28-66 *)
Definition NN : nat := nrows g.
(** the number of columns, fourier.py:28-66 *)
Definition MM : nat := ncols g.
(** surface.data, fourier.py:20-26 *)
Definition zdata : nat -> nat -> R := at2 (matrix_of g).
(** fourier.py:42-43, 124-125: the shifted amplitudes of the centred data, flattened row by row *)
Definition spectrum_flat : list R :=
  map (fun k => amplitude (centred zdata NN MM) NN MM (unshift NN (k / MM)) (unshift MM (k mod MM))) (seq 0 (NN * MM)).
(** fourier.py:46-47, 127-128: the shifted frequency axes; width_um = (nx - 1) step_x, surface.py:195-196 *)
Definition freq_x (k : nat) : R := fftfreq MM (extent MM sx / INR MM) (unshift MM k).
(** fourier.py:46-47, 127-128: the y axis *)
Definition freq_y (k : nat) : R := fftfreq NN (extent NN sy / INR NN) (unshift NN k).
(** np.argmax: first maximum *)
Definition argmax (l : list R) : res nat := argmin (map Ropp l).
(** fourier.py:114-131, surface.py:1332-1344; None: infinity *)
Definition dominant_wavelength : res (option R) :=
  if has_missing g then Err ValueError else
  do k <- argmax spectrum_flat;
  let f := sqrt (freq_x (k mod MM) ^ 2 + freq_y (k / MM) ^ 2) in
  Ok (if Req_EM_T f 0 then None else Some (1 / f)).

(** np.argsort: some order of the indices along which the values ascend (unstable for equal values) *)
Variable argsort : list R -> list nat.
(** fourier.py:28-65 *)
Definition peak_dx_dy : res (R * R) :=
  if has_missing g then Err ValueError else
  match rev (argsort spectrum_flat) with
  | k0 :: k1 :: _ =>
      let p0 := (freq_x (k0 mod MM), freq_y (k0 / MM)) in
      let p1 := (freq_x (k1 mod MM), freq_y (k1 / MM)) in
      let '(q0, q1) := if Rltb (fst p1) (fst p0) then (p1, p0) else (p0, p1) in
      Ok (fst q1 - fst q0, snd q0 - snd q1)
  | _ => Err IndexError
  end.
(** fourier.py:67-77, surface.py:1348-1362; numpy division by zero: infinity, here None *)
Definition period : res (option R) :=
  rmap (fun d => let h := sqrt (fst d ^ 2 + snd d ^ 2) in if Req_EM_T h 0 then None else Some (2 / h)) peak_dx_dy.
(** fourier.py:79-91; None: infinity *)
Definition period_x_y : res (option R * option R) :=
  rmap (fun d => (if Req_EM_T (fst d) 0 then None else Some (Rabs (2 / fst d)), if Req_EM_T (snd d) 0 then None else Some (Rabs (2 / snd d)))) peak_dx_dy.
(** fourier.py:93-112; the frequencies are finite, so the comparisons with infinity never hold *)
Definition orientation : res R :=
  rmap (fun d => if Req_EM_T (fst d) 0 then 90 else if Req_EM_T (snd d) 0 then 0 else atan (snd d / fst d) * (180 / PI)) peak_dx_dy.

(** np.arctan2 of a frequency pair *)
Definition arctan2 (y x : R) : R :=
  if Rlt_dec 0 x then atan (y / x)
  else if Rlt_dec x 0 then (if Rle_dec 0 y then atan (y / x) + PI else atan (y / x) - PI)
  else if Rlt_dec 0 y then PI / 2 else if Rlt_dec y 0 then - (PI / 2) else 0.
(** np.mod with a positive divisor; floor of a real *)
Definition floor (x : R) : Z := (up x - 1)%Z.
(** np.mod with a positive divisor, fourier.py:155-167 *)
Definition pymod (x m : R) : R := x - m * IZR (floor (x / m)).
(** fourier.py:155-167, 169-184; np.arange(0, 180, step) has ceil(180 / step) elements *)
Definition n_angles (step : R) : nat := Z.to_nat (- floor (- (180 / step)))%Z.
(** fourier.py:158-163: the angle of a frequency, modulo 180 degrees *)
Definition theta (u v : nat) : R :=
  pymod (arctan2 (fftfreq NN (extent NN sy / INR NN) u) (fftfreq MM (extent MM sx / INR MM) v) * (180 / PI)) 180.
(** fourier.py:164-165: the bin of the angle *)
Definition bin_index (step : R) (u v : nat) : nat := Nat.min (Z.to_nat (floor (theta u v / step))) (n_angles step - 1).
(** fourier.py:155-156: the amplitude, squared or not *)
Definition weight (squared : bool) (u v : nat) : R :=
  let a := amplitude (centred zdata NN MM) NN MM u v in if squared then a ^ 2 else a.
(** np.bincount(bin_idx.ravel(), weights, minlength) *)
Definition angular_spectrum (step : R) (squared : bool) : res (list R * list R) :=
  if has_missing g then Err ValueError else
  Ok (map (fun b => INR b * step) (seq 0 (n_angles step)),
      map (fun b => sum2 NN MM (fun u v => if Nat.eqb (bin_index step u v) b then weight squared u v else 0)) (seq 0 (n_angles step))).
(** fourier.py:186-206 *)
Definition Std (step : R) : res R :=
  do s <- angular_spectrum step true; do k <- argmax (snd s); Ok (nth k (fst s) 0).
End Transform.
