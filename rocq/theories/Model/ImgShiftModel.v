(** Model of the shifted right images, pandora2d/img_tools.py:245-281 and 391-524. *)
From Coq Require Import ZArith List Bool Arith.
From Verif Require Import Base.Arr Base.ZRange Base.PyList.
Import ListNotations.
Open Scope Z_scope.

Section Img.
  (** Type of the image values, with its equality test (np.where(data == no_data)). *)
  Context {px : Type} (px_eqb : px -> px -> bool).

  (** Image dataset: "im", attrs["no_data_img"] and the optional "msk" given by the user
      (pandora's create_dataset_from_inputs, called by pandora2d/img_tools.py:55-94). *)
  Record image := mkImage { im_data : arr2 px; im_no_data : px; im_msk : option (arr2 Z) }.

  (** pandora2d/img_tools.py:245-281 (shift_disp_row_img).
      scipy.ndimage.shift(im, (-dec_row, 0), cval=no_data) with an integer [dec_row] gives the row
      r + dec_row of the image, cval when it does not exist (contract of scipy; the rounding errors of the
      spline of order 3 used by scipy are not modelled).
      The result is the data and the mask; the "msk" of the argument is not read. *)
  Definition shift_disp_row_img (img : image) (dec_row : Z) : arr2 px * arr2 Z :=
    let n0 := a2_n0 (im_data img) in
    let n1 := a2_n1 (im_data img) in
    let data r c :=
      let r' := Z.of_nat r + dec_row in
      if (0 <=? r') && (r' <? Z.of_nat n0) then a2_get (im_data img) (Z.to_nat r') c else im_no_data img in
    (mkArr2 n0 n1 data,
     mkArr2 n0 n1 (fun r c => if px_eqb (data r c) (im_no_data img) then 1 else 0)).

  (** pandora2d/img_tools.py:391-433 (row_zoom_img). [zoomed] is the result of
      scipy.ndimage.zoom(img, ((ny*subpix - (subpix-1)) / ny, 1)): its shape is
      (ny*subpix - (subpix-1), nx) and its row k is the image interpolated at the row k / subpix.
      np.pad adds one row of no data. xarray raises an error (None) when the number of rows is not the
      length of the coordinates np.arange(row0 + ind/subpix, row_last + 1). *)
  Definition zoom_rows (ny subpix : nat) : nat := (ny * subpix - (subpix - 1))%nat.
  Definition row_zoom_img (zoomed : nat -> nat -> px) (img : image) (subpix ind : nat) : option image :=
    let ny := a2_n0 (im_data img) in
    let nx := a2_n1 (im_data img) in
    let n := strided_len (zoom_rows ny subpix) ind subpix in
    let coords := ((ny * subpix - ind + subpix - 1) / subpix)%nat in
    if (S n =? coords)%nat then
      Some (mkImage (mkArr2 (S n) nx (fun r c => if (r <? n)%nat then zoomed (ind + r * subpix)%nat c
                                                 else im_no_data img))
                    (im_no_data img) None)
    else None.

  (** pandora2d/img_tools.py:480-524 (shift_subpix_img), with row=True. *)
  Definition shift_subpix_img (zoomed : nat -> nat -> px) (img : image) (subpix : nat) : option (list image) :=
    match map_opt (row_zoom_img zoomed img subpix) (seq 1 (subpix - 1)) with
    | Some l => Some (img :: l)
    | None => None
    end.

  (** pandora2d/matching_cost/matching_cost.py:347-366: right image used for the row disparity
      [d] / subpix (disparities are in units of 1/subpix, [disp_row % 1] * subpix is [d mod subpix] and
      np.floor(disp_row) is [d / subpix]). IndexError: None. *)
  Definition right_for_disp (imgs : list image) (subpix : nat) (d : Z) : option (arr2 px * arr2 Z) :=
    let i_right := Z.to_nat (d mod Z.of_nat subpix) in
    match nth_error imgs i_right with
    | Some img => Some (shift_disp_row_img img (d / Z.of_nat subpix))
    | None => None
    end.
End Img.
Arguments image : clear implicits.
