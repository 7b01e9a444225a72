(** Model of the report written by main: pandora2d/statistics.py and pandora2d/reporting.py on saved maps (exact numbers), and the dictionary of report.json. *)
From Coq Require Import ZArith QArith List String Bool.
From Verif Require Import Base.Json Base.Dict Model.RoiModel Model.StatisticsModel Model.InterpolationModel.
Import ListNotations.
Open Scope string_scope.

(** Sorting, as np.nanquantile does. *)
Fixpoint q_insert (z : Q) (l : list Q) : list Q := match l with [] => [z] | x :: r => if Qle_bool z x then z :: l else x :: q_insert z r end.
Definition q_sort (l : list Q) : list Q := fold_right q_insert [] l.
(** np.nanquantile (method linear), see StatisticsModel. *)
Definition q_quantile (p d : Z) (s : list Q) : option Q :=
  match s with
  | [] => None
  | x :: _ =>
      let last_index := (Z.of_nat (List.length s) - 1)%Z in
      let previous := (p * last_index / d)%Z in
      let gamma := (inject_Z (p * last_index mod d) / inject_Z d)%Q in
      Some (lerp (nth (Z.to_nat previous) s x) (nth (Z.to_nat (Z.min (previous + 1) last_index)) s x) gamma)
  end.
Definition q_sum (l : list Q) : Q := fold_right Qplus 0%Q l.
(** np.nanmean, and np.nanstd squared. *)
Definition q_mean (l : list Q) : option Q := over (q_sum l) (List.length l).
Definition q_variance (l : list Q) : option Q :=
  match q_mean l with None => None | Some mu => over (q_sum (map (fun z => (z - mu) * (z - mu))%Q l)) (List.length l) end.

(** np.isin with the invalid value, and np.isnan. *)
Definition same_invalid (inv : json) (x : cost) : bool :=
  match inv, x with
  | JInt z, CFin q => Qeq_bool q (inject_Z z)
  | JFloat v, CFin q => Qeq_bool q v
  | JInf a, CInf b => Bool.eqb a b
  | _, _ => false
  end.
(** An array of one element (disparity.py accepts lists) is used like its element, True and False like 1 and 0. *)
Fixpoint element (inv : json) : json := match inv with JList [j] => element j | JBool b => JInt (Z.b2z b) | _ => inv end.
(** The numbers among the values; None: an infinite value, for which the statistics are not modelled. *)
Fixpoint finite (l : list cost) : option (list Q) :=
  match l with
  | [] => Some []
  | CNan :: r => finite r
  | CFin q :: r => match finite r with Some s => Some (q :: s) | None => None end
  | CInf _ :: _ => None
  end.

Section Report.
  (** The square root of numpy. *)
  Variable root : Q -> Q.

  (** json.dump with reporting.py:28-38: numpy's floats become python's floats, NaN is written NaN. *)
  Definition dumped (x : option Q) : json := match x with Some q => JFloat q | None => JNan end.
  (** statistics.py:28-53: dataclasses.asdict, the fields in the order of the class. *)
  Definition to_dict (mean std : option Q) (quantiles : list (option Q)) (ratio : option Q) : json :=
    JDict [("mean", dumped mean); ("std", dumped std);
           ("quantiles", JDict (combine ["p10"; "p25"; "p50"; "p75"; "p90"] (map dumped quantiles)));
           ("minimal_valid_pixel_ratio", dumped ratio)].
  (** statistics.py:56-84; null when there are infinite values (not modelled). *)
  Definition map_statistics (data : list cost) (invalid : json) : json :=
    let inv := element invalid in
    let valid x := match inv with JNan | JNull => negb (c_isnan x) | _ => negb (same_invalid inv x) end in
    let kept := match inv with JNan | JNull => data | _ => List.filter valid data end in
    let ratio := over (inject_Z (Z.of_nat (List.length (List.filter valid data)))) (List.length data) in
    match finite kept with
    | None => JNull
    | Some l => to_dict (q_mean l) (option_map root (q_variance l))
        (if (List.length kept =? 0)%nat then [None; None; None; None; None] else map (fun p => q_quantile (fst p) (snd p) (q_sort l)) levels) ratio
    end.
  (** reporting.py:41-51 and __init__.py:127. *)
  Definition report_of (inv : json) (maps : dmaps cost) : json :=
    JDict [("statistics", JDict [("disparity", JDict [("row", map_statistics (List.concat (dm_row_map maps)) inv); ("col", map_statistics (List.concat (dm_col_map maps)) inv)])])].
End Report.
