(** Properties of what pandora2d.main writes. *)
From Coq Require Import ZArith QArith List Bool Lia.
From Verif Require Import Base.Ext Base.PyList Model.CommonModel Model.RoiModel Model.StatisticsModel Model.MainModel Spec.RoiSpec.
Import ListNotations.
Open Scope Z_scope.

(** ** C67: the report describes the maps that are saved *)

(** True without ROI. *)
Theorem C67_report_partial ds saved report invalid cfg :
  write_results (Some ds) invalid cfg = Some (Some (saved, report)) -> sc_roi cfg = None ->
  dm_row_map saved = dm_row_map ds /\ dm_col_map saved = dm_col_map ds /\ report_disparities (dm_row_map saved) (dm_col_map saved) invalid = Some report.
Proof.
  unfold write_results, save_dataset, bind. intros H E. rewrite E in H. cbn in H. destruct (report_disparities (dm_row_map ds) (dm_col_map ds) invalid) as [r|] eqn:R; [|discriminate].
  injection H as <- <-. cbn. auto.
Qed.
(** With a ROI the report is the one of the maps with the margins. *)
Theorem C67_report_with_margins ds saved report invalid cfg r :
  write_results (Some ds) invalid cfg = Some (Some (saved, report)) -> sc_roi cfg = Some r -> report_disparities (dm_row_map ds) (dm_col_map ds) invalid = Some report.
Proof.
  unfold write_results, save_dataset, bind. intros H E. rewrite E in H. cbn in H. destruct (remove_roi_margins ds cfg) as [d|]; [|discriminate].
  destruct (report_disparities (dm_row_map ds) (dm_col_map ds) invalid) as [q|] eqn:R; [|discriminate]. injection H as _ <-. reflexivity.
Qed.

(** Three columns, the ROI is the middle one; the pixels of the margins are not valid, as at the border of an image. *)
Definition ex_main_ds : dmaps ext :=
  mkDmaps [0] [4; 5; 6] [[Fin (-9999); Fin 2; Fin (-9999)]] [[Fin (-9999); Fin 1; Fin (-9999)]] [[Fin 0; Fin 0; Fin 0]] None.
Definition ex_main_cfg : save_cfg := mkSave (Some (mkRoi 5 5 0 0 (1, 0, 1, 0))) (Some (1, 1)).

Theorem C67_report_refuted : exists ds saved report report' invalid cfg,
  write_results (Some ds) invalid cfg = Some (Some (saved, report)) /\ report_disparities (dm_row_map saved) (dm_col_map saved) invalid = Some report' /\
  (* a third of valid pixels is reported for a map where they are all valid *)
  st_ratio (fst report) = Some (1 / 3)%Q /\ st_ratio (fst report') = Some (1 / 1)%Q.
Proof.
  exists ex_main_ds. do 3 eexists. exists (Fin (-9999)), ex_main_cfg.
  split; [reflexivity|]. split; [reflexivity|]. split; reflexivity.
Qed.
(** The ROI is not degenerate: what is saved is the pixel of the ROI. *)
Example C67_example : option_map (fun p => option_map (fun q => dm_row_map (fst q)) p) (write_results (Some ex_main_ds) (Fin (-9999)) ex_main_cfg) = Some (Some [[Fin 2]]).
Proof. reflexivity. Qed.
Example C67_example_no_roi : exists saved report, write_results (Some ex_main_ds) (Fin (-9999)) (mkSave None (Some (1, 1))) = Some (Some (saved, report)).
Proof. do 2 eexists. reflexivity. Qed.

Print Assumptions C67_report_partial.
Print Assumptions C67_report_with_margins.
Print Assumptions C67_report_refuted.
