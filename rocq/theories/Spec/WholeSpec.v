(** What the user asks for, read in the configuration as it was written, and what the results must be. *)
From Coq Require Import List String Bool ZArith QArith.
From Verif Require Import Base.Ext Base.PyList Base.Arr Base.Json Model.DisparityModel Model.RoiModel Model.InputModel Model.InterpolationModel Spec.ConfigSpec
  Spec.DichotomySpec Spec.RoiSpec Spec.AcceptSpec Spec.WtaSpec Spec.BestSpec Spec.EstimationSpec.
Import ListNotations.
Open Scope Z_scope.
Open Scope string_scope.
Open Scope list_scope.

(** First row, last row, first column, last column. *)
Record zone := mkZone { z_r0 : Z; z_r1 : Z; z_c0 : Z; z_c1 : Z }.
(** Initial disparities and ranges, steps, ROI, value of the pixels without disparity. *)
Record request := mkRequest {
  q_row_init : json; q_row_range : Z; q_col_init : json; q_col_range : Z;
  q_row_step : Z; q_col_step : Z; q_zone : option zone; q_invalid : json }.

Section Asks.
  (** Whether booleans pass for integers. *)
  Variable bool_ok : bool.
  Definition value (p : list string) (cfg : dict) (z : Z) : Prop := exists j, get_path p (JDict cfg) = Some j /\ int_value bool_ok j z.
  (** A value as it is read: the strings NaN, inf and -inf stand for floats. *)
  Definition written (p : list string) (cfg : dict) (j : json) : Prop := exists w, get_path p (JDict cfg) = Some w /\ is_dict w = false /\ reads_as w j.
  (** The steps: 1 when they are not given. *)
  Definition asks_steps (cfg : dict) (row col : Z) : Prop :=
    get_path ["pipeline"; "matching_cost"; "step"] (JDict cfg) = None /\ row = 1 /\ col = 1 \/
    exists a b, get_path ["pipeline"; "matching_cost"; "step"] (JDict cfg) = Some (JList [a; b]) /\ int_value bool_ok a row /\ int_value bool_ok b col.
  Definition asks_zone (cfg : dict) (z : option zone) : Prop :=
    match z with
    | None => lookup "ROI" cfg = None
    | Some z => value ["ROI"; "row"; "first"] cfg (z_r0 z) /\ value ["ROI"; "row"; "last"] cfg (z_r1 z) /\
        value ["ROI"; "col"; "first"] cfg (z_c0 z) /\ value ["ROI"; "col"; "last"] cfg (z_c1 z)
    end.
  (** -9999 when the value is not given. *)
  Definition asks_invalid (cfg : dict) (j : json) : Prop :=
    get_path ["pipeline"; "disparity"; "invalid_disparity"] (JDict cfg) = None /\ j = JInt (-9999) \/
    written ["pipeline"; "disparity"; "invalid_disparity"] cfg j.
  (** All but the disparities. *)
  Definition asks_others (cfg : dict) (q : request) : Prop :=
    asks_steps cfg (q_row_step q) (q_col_step q) /\ asks_zone cfg (q_zone q) /\ asks_invalid cfg (q_invalid q).
  Definition asks (cfg : dict) (q : request) : Prop :=
    written ["input"; "row_disparity"; "init"] cfg (q_row_init q) /\ value ["input"; "row_disparity"; "range"] cfg (q_row_range q) /\
    written ["input"; "col_disparity"; "init"] cfg (q_col_init q) /\ value ["input"; "col_disparity"; "range"] cfg (q_col_range q) /\
    asks_others cfg q.
  (** The refinement method and its number of iterations: 4 for an optical flow when it is not given. *)
  Definition asks_refinement (cfg : dict) (method : string) (iterations : Z) : Prop :=
    get_path ["pipeline"; "refinement"; "refinement_method"] (JDict cfg) = Some (JStr method) /\
    (value ["pipeline"; "refinement"; "iterations"] cfg iterations \/
     method = "optical_flow" /\ get_path ["pipeline"; "refinement"; "iterations"] (JDict cfg) = None /\ iterations = 4).
  (** A range of the estimation: 5 when it is not given. *)
  Definition asks_range (cfg : dict) (k : string) (range : Z) : Prop :=
    get_path ["pipeline"; "estimation"; k] (JDict cfg) = None /\ range = 5 \/ get_path ["pipeline"; "estimation"; k] (JDict cfg) = Some (JInt range).
End Asks.

(** The rows (columns) asked for in an image of this height (width). *)
Definition wanted (bounds : option (Z * Z)) (size step x : Z) : Prop :=
  match bounds with
  | Some (first, last) => first <= x <= last /\ x < size /\ (x - first) mod step = 0
  | None => 0 <= x < size /\ x mod step = 0
  end.
Definition wanted_row (q : request) (height x : Z) : Prop := wanted (option_map (fun z => (z_r0 z, z_r1 z)) (q_zone q)) height (q_row_step q) x.
Definition wanted_col (q : request) (width x : Z) : Prop := wanted (option_map (fun z => (z_c0 z, z_c1 z)) (q_zone q)) width (q_col_step q) x.

(** The rows (columns) of the part of the image that is asked for, whatever the step. *)
Definition inside (bounds : option (Z * Z)) (size x : Z) : Prop :=
  match bounds with Some (first, last) => first <= x <= last /\ x < size | None => 0 <= x < size end.
Definition inside_row (q : request) (height x : Z) : Prop := inside (option_map (fun z => (z_r0 z, z_r1 z)) (q_zone q)) height x.
Definition inside_col (q : request) (width x : Z) : Prop := inside (option_map (fun z => (z_c0 z, z_c1 z)) (q_zone q)) width x.

(** Middle of the interval of the pixel at this row and column: a constant, or the value of the file. *)
Definition middle (open_raster : string -> reader) (init : json) (row col : Z) (v : Z) : Prop :=
  constant init v \/ exists s, init = JStr s /\ v = a2_get (rd_band (open_raster s)) (Z.to_nat row) (Z.to_nat col).
(** A disparity in pixels, inside the interval of this pixel, bounds included. *)
Definition in_interval (open_raster : string -> reader) (init : json) (range row col : Z) (c : cost) : Prop :=
  exists v q, middle open_raster init row col v /\ c = CFin q /\ (inject_Z (v - range) <= q <= inject_Z (v + range))%Q.
(** A saved number that is this value of the configuration; floats are known up to 1 / one. *)
Inductive shows (one : Z) : json -> cost -> Prop :=
| shows_int z q : (q == inject_Z z)%Q -> shows one (JInt z) (CFin q)
| shows_bool b q : (q == inject_Z (Z.b2z b))%Q -> shows one (JBool b) (CFin q)
| shows_float f q : (q <= f < q + 1 / inject_Z one)%Q -> shows one (JFloat f) (CFin q)
| shows_inf b : shows one (JInf b) (CInf b)
| shows_nan : shows one JNan CNan
| shows_list j c : shows one j c -> shows one (JList [j]) c.

(** At least two rows and two columns of the image of this size are asked for. *)
Definition two_lines (q : request) (rows cols : nat) : Prop :=
  match q_zone q with
  | Some z => z_r0 z < z_r1 z /\ z_r0 z + 1 < Z.of_nat rows /\ z_c0 z < z_c1 z /\ z_c0 z + 1 < Z.of_nat cols
  | None => (2 <= rows)%nat /\ (2 <= cols)%nat
  end.
(** The saved maps: exactly the rows and columns asked for, in increasing order; for each pixel, both disparities are the invalid value or each one is in its interval. *)
Definition saved_right (open_raster : string -> reader) (one : Z) (q : request) (rows cols : nat) (saved : dmaps cost) : Prop :=
  (forall x, In x (dm_rows saved) <-> wanted_row q (Z.of_nat rows) x) /\ (forall y, In y (dm_cols saved) <-> wanted_col q (Z.of_nat cols) y) /\
  increasing (dm_rows saved) /\ increasing (dm_cols saved) /\ wf_dmaps saved /\
  forall a b x y, nth_error (dm_rows saved) a = Some x -> nth_error (dm_cols saved) b = Some y ->
    exists vr vc, nth2 (dm_row_map saved) a b = Some vr /\ nth2 (dm_col_map saved) a b = Some vc /\
      (shows one (q_invalid q) vr /\ shows one (q_invalid q) vc \/
       in_interval open_raster (q_row_init q) (q_row_range q) x y vr /\ in_interval open_raster (q_col_init q) (q_col_range q) x y vc).

(** The candidates for this pixel in one direction: every 1 / subpix pixel in its interval; [d] in 1 / subpix pixel. *)
Definition candidate (open_raster : string -> reader) (init : json) (range subpix row col d : Z) : Prop :=
  exists v, middle open_raster init row col v /\ (v - range) * subpix <= d <= (v + range) * subpix.
(** A saved number that is n / k. *)
Definition quotient (n k : Z) (c : cost) : Prop := exists q, c = CFin q /\ (q == inject_Z n / inject_Z k)%Q.
Definition same_number (one : Z) (x : ext) (c : cost) : Prop :=
  match x with Fin n => quotient n one c | PInf => c = CInf true | NInf => c = CInf false | NaN => c = CNan end.
(** The saved maps are optimal: [cost x y dr dc] is the cost of a pair of candidates of the pixel at the row x and the column y, in units of 1 / one. *)
Definition saved_best (open_raster : string -> reader) (one subpix : Z) (t : measure) (q : request) (cost : Z -> Z -> Z -> Z -> ext) (saved : dmaps InterpolationModel.cost) : Prop :=
  forall a b x y, nth_error (dm_rows saved) a = Some x -> nth_error (dm_cols saved) b = Some y ->
    exists vr vc vs, nth2 (dm_row_map saved) a b = Some vr /\ nth2 (dm_col_map saved) a b = Some vc /\ nth2 (dm_score saved) a b = Some vs /\
      best t (candidate open_raster (q_row_init q) (q_row_range q) subpix x y) (candidate open_raster (q_col_init q) (q_col_range q) subpix x y) (cost x y)
        (shows one (q_invalid q) vr /\ shows one (q_invalid q) vc /\ shows one (q_invalid q) vs)
        (fun dr dc s => quotient dr subpix vr /\ quotient dc subpix vc /\ same_number one s vs).
(** The window of the image that is loaded: all of it without ROI, a part of it that contains the ROI otherwise. *)
Definition window_ok (q : request) (rows cols : nat) (row0 : Z) (nrow : nat) (col0 : Z) (ncol : nat) : Prop :=
  match q_zone q with
  | None => row0 = 0 /\ nrow = rows /\ col0 = 0 /\ ncol = cols
  | Some z => 0 <= row0 <= z_r0 z /\ Z.min (z_r1 z + 1) (Z.of_nat rows) <= row0 + Z.of_nat nrow <= Z.of_nat rows /\
      0 <= col0 <= z_c0 z /\ Z.min (z_c1 z + 1) (Z.of_nat cols) <= col0 + Z.of_nat ncol <= Z.of_nat cols
  end.
(** The window contains every position that a pixel of the part asked for can be matched with, with the candidates of any pixel of the image. *)
Definition window_reaches (open_raster : string -> reader) (q : request) (rows cols : nat) (row0 : Z) (nrow : nat) (col0 : Z) (ncol : nat) : Prop :=
  forall x y x' y' d, inside_row q (Z.of_nat rows) x -> inside_col q (Z.of_nat cols) y -> 0 <= x' < Z.of_nat rows -> 0 <= y' < Z.of_nat cols ->
    (candidate open_raster (q_row_init q) (q_row_range q) 1 x' y' d -> 0 <= x + d < Z.of_nat rows -> row0 <= x + d < row0 + Z.of_nat nrow) /\
    (candidate open_raster (q_col_init q) (q_col_range q) 1 x' y' d -> 0 <= y + d < Z.of_nat cols -> col0 <= y + d < col0 + Z.of_nat ncol).
(** The window contains the part of the image that is at most at this distance of the pixels asked for. *)
Definition window_around (k : Z) (q : request) (rows cols : nat) (row0 : Z) (nrow : nat) (col0 : Z) (ncol : nat) : Prop :=
  (forall x d, inside_row q (Z.of_nat rows) x -> - k <= d <= k -> 0 <= x + d < Z.of_nat rows -> row0 <= x + d < row0 + Z.of_nat nrow) /\
  (forall y d, inside_col q (Z.of_nat cols) y -> - k <= d <= k -> 0 <= y + d < Z.of_nat cols -> col0 <= y + d < col0 + Z.of_nat ncol).

(** The same request with these disparities. *)
Definition with_disparities (q : request) (row : json) (row_range : Z) (col : json) (col_range : Z) : request :=
  mkRequest row row_range col col_range (q_row_step q) (q_col_step q) (q_zone q) (q_invalid q).
(** The user wrote no disparity, the ranges of the estimation are those of the request. *)
Definition asks_estimation (cfg : dict) (q : request) : Prop :=
  get_path ["input"; "row_disparity"] (JDict cfg) = None /\ get_path ["input"; "col_disparity"] (JDict cfg) = None /\
  asks_range cfg "range_row" (q_row_range q) /\ asks_range cfg "range_col" (q_col_range q).
(** The initial disparities come from the estimated shifts (rows, columns): their opposites, rounded. *)
Definition centred (shifts : Q * Q) (q : request) : Prop :=
  exists r c, q_row_init q = JInt r /\ q_col_init q = JInt c /\ nearest (- fst shifts) r /\ half_to_even (- fst shifts) r /\ nearest (- snd shifts) c /\ half_to_even (- snd shifts) c.

(** * Comparisons of saved maps *)
Definition same_cost (a b : cost) : Prop := match a, b with CFin p, CFin q => (p == q)%Q | CInf x, CInf y => x = y | CNan, CNan => True | _, _ => False end.
(** The score [a] is at least as good as [b]. *)
Definition score_le (a b : cost) : Prop :=
  match a, b with CFin p, CFin q => (p <= q)%Q | CInf false, CFin _ | CInf false, CInf _ | CFin _, CInf true | CInf true, CInf true => True | _, _ => False end.
Definition good_score (t : measure) (a b : cost) : Prop := match t with MeasureMin => score_le a b | MeasureMax => score_le b a end.
Definition pixel_of (saved : dmaps cost) (x y : Z) (vr vc vs : cost) : Prop :=
  exists a b, nth_error (dm_rows saved) a = Some x /\ nth_error (dm_cols saved) b = Some y /\
    nth2 (dm_row_map saved) a b = Some vr /\ nth2 (dm_col_map saved) a b = Some vc /\ nth2 (dm_score saved) a b = Some vs.
(** A pixel without disparity. *)
Definition without_disparity (one : Z) (q : request) (vr vc vs : cost) : Prop := shows one (q_invalid q) vr /\ shows one (q_invalid q) vc /\ shows one (q_invalid q) vs.
(** The pixels that are in both have the same disparities and the same score. *)
Definition agree (one : Z) (q : request) (saved saved' : dmaps cost) : Prop :=
  forall x y vr vc vs vr' vc' vs', pixel_of saved x y vr vc vs -> pixel_of saved' x y vr' vc' vs' ->
    without_disparity one q vr vc vs /\ without_disparity one q vr' vc' vs' \/ same_cost vr vr' /\ same_cost vc vc' /\ same_cost vs vs'.
(** Every pixel is in the other maps, with the same values. *)
Definition part_of (saved saved' : dmaps cost) : Prop := forall x y vr vc vs, pixel_of saved x y vr vc vs -> pixel_of saved' x y vr vc vs.

(** The transform of the saved maps gives to every saved pixel the point that the transform of the left image gives to the pixel it comes from. *)
Definition georeferenced (t : option affine) (saved : dmaps cost) : Prop :=
  match t, dm_transform saved with
  | None, None => True
  | Some t, Some t' => forall i j r c, nth_error (dm_rows saved) i = Some r -> nth_error (dm_cols saved) j = Some c ->
      same_point (world t' (inject_Z (Z.of_nat j)) (inject_Z (Z.of_nat i))) (world t (inject_Z c) (inject_Z r))
  | _, _ => False
  end.
Definition with_zone (q : request) (z : option zone) : request :=
  mkRequest (q_row_init q) (q_row_range q) (q_col_init q) (q_col_range q) (q_row_step q) (q_col_step q) z (q_invalid q).

(** The window of half size [half] around the position x, and the one around x + d / subpix, are between the positions lo (included) and hi (excluded). *)
Definition fits (half subpix x d lo hi : Z) : Prop := lo <= x - half /\ x + half < hi /\ lo * subpix <= (x - half) * subpix + d /\ (x + half) * subpix + d <= (hi - 1) * subpix.
