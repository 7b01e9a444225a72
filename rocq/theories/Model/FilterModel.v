(** Model of the coefficients of pandora2d/interpolation_filter: bicubic.py (rational numbers) and cardinal_sine.py (real numbers).
    Floating point rounding is not modelled. *)
From Coq Require Import ZArith QArith Qround Qabs Reals List Bool Arith.
From Verif Require Import Base.PyList Base.ZRange Model.DichotomyModel.
Import ListNotations.

(** *** interpolation_filter.py, for any kind of numbers *)
Section Apply.
  Context {T : Type} (add mul : T -> T -> T) (zero : T).
  (** numpy's dot of two vectors, and of a vector and a matrix with [ncol] columns. *)
  Definition dot (u v : list T) : T := fold_right add zero (map (fun p => mul (fst p) (snd p)) (combine u v)).
  Definition vec_dot (u : list T) (ncol : nat) (m : list (list T)) : list T :=
    map (fun j => dot u (map (fun line => nth j line zero) m)) (seq 0 ncol).
  (** interpolation_filter.py:130-145 (apply): (row_coeff.dot(resampling_area)).dot(col_coeff) *)
  Definition apply (area : list (list T)) (row_coeff col_coeff : list T) : T := dot (vec_dot row_coeff (length col_coeff) area) col_coeff.
  (** interpolation_filter.py:184-194: resampling area from its top left point. *)
  Definition area_at (size : nat) (top left : Z) (image : list (list T)) : list (list T) :=
    map (py_slice left (left + Z.of_nat size)) (py_slice top (top + Z.of_nat size) image).
End Apply.

(** *** Bicubic filter on rational numbers *)
Open Scope Q_scope.
(** bicubic.py:36: _ALPHA *)
Definition alpha : Q := - (1 # 2).
(** bicubic.py:46-59 (get_coeffs), coefficient i *)
Definition bicubic_coeff (frac : Q) (i : nat) : Q :=
  let dist := Qabs (- (1) + inject_Z (Z.of_nat i) - frac) in
  if Qle_bool dist 1 then (((alpha + 2) * dist - (alpha + 3)) * dist * dist) + 1
  else (((alpha * dist - 5 * alpha) * dist) + 8 * alpha) * dist - 4 * alpha.
Definition bicubic_coeffs (frac : Q) : list Q := map (bicubic_coeff frac) (seq 0 4).

(** interpolation_filter.py:166-178: abs(math.modf(pos)[0]) (modf truncates towards zero), replaced by 511/512 when 1 - it < eps. *)
Definition q_fractional (pos : Q) : Q :=
  let f := Qabs pos - inject_Z (Qfloor (Qabs pos)) in
  if Qle_bool (1 # 8388608) (1 - f) then f else 511 # 512.
(** interpolation_filter.py:147-202 (interpolate), one position (column, row), bicubic filter: margins 1, size 4. None: numpy's error when
    the shapes differ. *)
Definition bicubic_interpolate (image : list (list Q)) (pos : Q * Q) : option Q :=
  let '(pos_col, pos_row) := pos in
  let area := area_at 4 (Qfloor pos_row - 1) (Qfloor pos_col - 1) image in
  if (length area =? 4)%nat && forallb (fun line => (length line =? 4)%nat) area
  then Some (apply Qplus Qmult 0 area (bicubic_coeffs (q_fractional pos_row)) (bicubic_coeffs (q_fractional pos_col))) else None.

(** *** Cardinal sine filter on real numbers *)
Open Scope R_scope.
(** np.sinc *)
Definition sinc (x : R) : R := if Req_EM_T x 0 then 1 else sin (PI * x) / (PI * x).
(** cardinal_sine.py:90: np.arange(-filter_size, filter_size + 1) *)
Definition coeff_range (half : nat) : list Z := zarange (- Z.of_nat half) (Z.of_nat half + 1) 1.
Definition sumR (l : list R) : R := fold_right Rplus 0 l.
(** cardinal_sine.py:88-89, 105-107 (compute_coefficient_table), one row. No value is NaN: nansum is the sum. *)
Definition raw_coeff (half : nat) (f : R) (k : Z) : R :=
  let aux := f - IZR k in sinc aux * exp ((-2 * PI) / (INR half * INR half) * aux * aux).
Definition sinc_coeffs (half : nat) (f : R) : list R :=
  let tab := map (raw_coeff half f) (coeff_range half) in map (fun x => x / sumR tab) tab.
(** cardinal_sine.py:51: np.arange(0, 1, fractional_shift), in units ([one] units are 1, [shift] divides [one]). *)
Definition fractional_shifts (one shift : Z) : list Z := zarange 0 one shift.
Definition coefficient_table (half : nat) (one shift : Z) : list (list R) :=
  map (fun f => sinc_coeffs half (IZR f / IZR one)) (fractional_shifts one shift).
(** cardinal_sine.py:64-66 (get_coeffs). None: IndexError. *)
Definition sinc_get_coeffs (half : nat) (one shift frac : Z) : option (list R) :=
  nth_error (coefficient_table half one shift) (searchsorted (fractional_shifts one shift) frac).
(** interpolation_filter.py:147-202 (interpolate), one position (column, row) in units. *)
Definition sinc_interpolate (half : nat) (one shift : Z) (image : list (list R)) (pos : Z * Z) : option R :=
  let '(pos_col, pos_row) := pos in
  match sinc_get_coeffs half one shift (fractional one pos_row), sinc_get_coeffs half one shift (fractional one pos_col) with
  | Some coeffs_row, Some coeffs_col =>
      let size := (1 + 2 * half)%nat in
      let area := area_at size (pos_row / one - Z.of_nat half) (pos_col / one - Z.of_nat half) image in
      if (length area =? size)%nat && forallb (fun line => (length line =? size)%nat) area
      then Some (apply Rplus Rmult 0 area coeffs_row coeffs_col) else None
  | _, _ => None
  end.
