(** Model of pandora2d/statistics.py and of the statistics of pandora2d/reporting.py. *)
From Coq Require Import ZArith QArith List Bool.
From Verif Require Import Base.Ext.
Import ListNotations.
Open Scope Z_scope.

(** Disparities are in units (as in the other models): every statistic is in the same unit, the variance in its square. *)

(** statistics.py:42-46 (Statistics, Quantiles): None is NaN. The standard deviation is the square root of the variance. *)
Record statistics := mkStats { st_mean : option Q; st_variance : option Q; st_quantiles : list (option Q); st_ratio : option Q }.

(** numpy's isin on one element (== comparison) and isnan. *)
Definition ext_same (x v : ext) : bool :=
  match x, v with NInf, NInf | PInf, PInf => true | Fin a, Fin b => a =? b | _, _ => false end.
Definition ext_nan (x : ext) : bool := match x with NaN => true | _ => false end.

(** The numbers among the values (NaN ignored by the nan... functions of numpy). None: an infinite value, for which the statistics are not modelled. *)
Fixpoint numbers (l : list ext) : option (list Z) :=
  match l with
  | [] => Some []
  | NaN :: r => numbers r
  | Fin z :: r => match numbers r with Some s => Some (z :: s) | None => None end
  | _ :: _ => None
  end.

(** Sorting, as np.nanquantile does. *)
Fixpoint insert (z : Z) (l : list Z) : list Z := match l with [] => [z] | x :: r => if z <=? x then z :: l else x :: insert z r end.
Definition sort (l : list Z) : list Z := fold_right insert [] l.

(** numpy's _lerp. *)
Definition lerp (a b t : Q) : Q := if Qle_bool (1 # 2) t then (b - (b - a) * (1 - t))%Q else (a + (b - a) * t)%Q.
(** np.nanquantile (method linear) of the quantile p / d on sorted numbers; NaN without any number. *)
Definition quantile (p d : Z) (s : list Z) : option Q :=
  match s with
  | [] => None
  | x :: _ =>
      let last_index := Z.of_nat (length s) - 1 in
      let previous := p * last_index / d in
      let gamma := (inject_Z (p * last_index mod d) / inject_Z d)%Q in
      let next := Z.min (previous + 1) last_index in
      Some (lerp (inject_Z (nth (Z.to_nat previous) s x)) (inject_Z (nth (Z.to_nat next) s x)) gamma)
  end.
(** The quantiles 0.1, 0.25, 0.5, 0.75, 0.9 (statistics.py:74). *)
Definition levels : list (Z * Z) := [(1, 10); (1, 4); (1, 2); (3, 4); (9, 10)].

Definition sum (l : list Z) : Z := fold_right Z.add 0 l.
(** Division by a number of elements: NaN for 0 / 0. *)
Definition over (x : Q) (n : nat) : option Q := match n with O => None | _ => Some (x / inject_Z (Z.of_nat n))%Q end.
Definition mean (l : list Z) : option Q := over (inject_Z (sum l)) (length l).
(** np.nanstd squared: the mean of the squares of the distances to the mean. *)
Definition variance (l : list Z) : option Q :=
  match mean l with
  | None => None
  | Some mu => over (fold_right Qplus 0%Q (map (fun z => (inject_Z z - mu) * (inject_Z z - mu))%Q l)) (length l)
  end.
Definition count {A} (f : A -> bool) (l : list A) : nat := length (filter f l).

(** statistics.py:56-84. [invalid]: None is python's None. *)
Definition compute_statistics (data : list ext) (invalid : option ext) : option statistics :=
  let '(kept, ratio) :=
    match invalid with
    | None | Some NaN => (data, over (inject_Z (Z.of_nat (count (fun x => negb (ext_nan x)) data))) (length data))
    | Some v => (filter (fun x => negb (ext_same x v)) data, over (inject_Z (Z.of_nat (count (fun x => negb (ext_same x v)) data))) (length data))
    end in
  match numbers kept with
  | None => None
  | Some l => Some (mkStats (mean l) (variance l)
                (if (length kept =? 0)%nat then [None; None; None; None; None] else map (fun p => quantile (fst p) (snd p) (sort l)) levels) ratio)
  end.

(** reporting.py:41-51: the statistics of the row map, then of the column map. *)
Definition report_disparities (row_map col_map : list (list ext)) (invalid_disp : ext) : option (statistics * statistics) :=
  match compute_statistics (concat row_map) (Some invalid_disp), compute_statistics (concat col_map) (Some invalid_disp) with
  | Some r, Some c => Some (r, c)
  | _, _ => None
  end.
