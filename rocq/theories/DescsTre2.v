(** Field tables of pynitf, generated from the python sources by tools/gen_desc.py
    (TREs, second part).  Each row cites the line it was translated from. *)
From Verif Require Import Base Engine.
Open Scope string_scope.

(** pynitf/nitf_tre_matesa.py, class TreMATESA (line 33), table at line 14. *)
Definition desc_TreMATESA : list row := [
  (* pynitf/nitf_tre_matesa.py:14 *) RField (Build_fdesc (Some "cur_source") (SzInt 42%Z) TStr FrNone DfNone None false 32%N false None 0%Z false);
  (* pynitf/nitf_tre_matesa.py:15 *) RField (Build_fdesc (Some "cur_mate_type") (SzInt 16%Z) TStr FrNone DfNone None false 32%N false None 0%Z false);
  (* pynitf/nitf_tre_matesa.py:16 *) RField (Build_fdesc (Some "cur_file_id_len") (SzInt 4%Z) TInt FrNone DfNone None false 32%N false None 0%Z false);
  (* pynitf/nitf_tre_matesa.py:17 *) RField (Build_fdesc (Some "cur_file_id") (SzExpr (EFld "cur_file_id_len" 0)) (TData KString) FrNone DfNone None false 32%N false None 0%Z false);
  (* pynitf/nitf_tre_matesa.py:19 *) RField (Build_fdesc (Some "num_groups") (SzInt 4%Z) TInt FrNone DfNone None false 32%N false None 0%Z false);
  (* pynitf/nitf_tre_matesa.py:20 *)
  RLoop (EFld "num_groups" 0) [
    (* pynitf/nitf_tre_matesa.py:21 *) RField (Build_fdesc (Some "relationship") (SzInt 24%Z) TStr FrNone DfNone None false 32%N false None 0%Z false);
    (* pynitf/nitf_tre_matesa.py:22 *) RField (Build_fdesc (Some "num_mates") (SzInt 4%Z) TInt FrNone DfNone None false 32%N false None 0%Z false);
    (* pynitf/nitf_tre_matesa.py:23 *)
    RLoop (EFld "num_mates" 1) [
      (* pynitf/nitf_tre_matesa.py:24 *) RField (Build_fdesc (Some "source") (SzInt 42%Z) TStr FrNone DfNone None false 32%N false None 0%Z false);
      (* pynitf/nitf_tre_matesa.py:25 *) RField (Build_fdesc (Some "mate_type") (SzInt 16%Z) TStr FrNone DfNone None false 32%N false None 0%Z false);
      (* pynitf/nitf_tre_matesa.py:26 *) RField (Build_fdesc (Some "mate_id_len") (SzInt 4%Z) TInt FrNone DfNone None false 32%N false None 0%Z false);
      (* pynitf/nitf_tre_matesa.py:27 *) RField (Build_fdesc (Some "mate_id") (SzExpr (EFld "mate_id_len" 2)) (TData KString) FrNone DfNone None false 32%N false None 0%Z false)]]
].

(** pynitf/nitf_tre_micida.py, class TreMICIDA (line 24), table at line 13. *)
Definition desc_TreMICIDA : list row := [
  (* pynitf/nitf_tre_micida.py:13 *) RField (Build_fdesc (Some "miis_core_id_version") (SzInt 2%Z) TInt (FrD (Build_dfmt false true false 2)) (DfInt 1%Z) None false 32%N true None 0%Z false);
  (* pynitf/nitf_tre_micida.py:15 *) RField (Build_fdesc (Some "num_camera_ids") (SzInt 3%Z) TInt FrNone DfNone None false 32%N false None 0%Z false);
  (* pynitf/nitf_tre_micida.py:16 *)
  RLoop (EFld "num_camera_ids" 0) [
    (* pynitf/nitf_tre_micida.py:17 *) RField (Build_fdesc (Some "cameras_id") (SzInt 36%Z) TStr FrNone DfNone None false 32%N false None 0%Z false);
    (* pynitf/nitf_tre_micida.py:18 *) RField (Build_fdesc (Some "core_id_length") (SzInt 3%Z) TInt FrNone DfNone None false 32%N false None 0%Z false);
    (* pynitf/nitf_tre_micida.py:19 *) RField (Build_fdesc (Some "camera_core_id") (SzExpr (EFld "core_id_length" 1)) (TData KString) FrNone DfNone None false 32%N false None 0%Z false)]
].

(** pynitf/nitf_tre_mimcsa.py, class TreMIMCSA (line 23), table at line 12. *)
Definition desc_TreMIMCSA : list row := [
  (* pynitf/nitf_tre_mimcsa.py:12 *) RField (Build_fdesc (Some "layer_id") (SzInt 36%Z) TStr FrNone DfNone None false 32%N false None 0%Z false);
  (* pynitf/nitf_tre_mimcsa.py:13 *) RField (Build_fdesc (Some "nominal_frame_rate") (SzInt 13%Z) TFloat FrNone DfNone None false 32%N false None 0%Z false);
  (* pynitf/nitf_tre_mimcsa.py:14 *) RField (Build_fdesc (Some "min_frame_rate") (SzInt 13%Z) TFloat FrNone DfNone None false 32%N false None 0%Z false);
  (* pynitf/nitf_tre_mimcsa.py:15 *) RField (Build_fdesc (Some "max_frame_rate") (SzInt 13%Z) TFloat FrNone DfNone None false 32%N false None 0%Z false);
  (* pynitf/nitf_tre_mimcsa.py:16 *) RField (Build_fdesc (Some "t_rset") (SzInt 2%Z) TInt FrNone DfNone None false 32%N false None 0%Z false);
  (* pynitf/nitf_tre_mimcsa.py:17 *) RField (Build_fdesc (Some "mi_req_decoder") (SzInt 2%Z) TStr FrNone (DfStr (str "NC")) None false 32%N false None 0%Z false);
  (* pynitf/nitf_tre_mimcsa.py:18 *) RField (Build_fdesc (Some "mi_req_profile") (SzInt 36%Z) TStr FrNone DfNone None false 32%N false None 0%Z false);
  (* pynitf/nitf_tre_mimcsa.py:19 *) RField (Build_fdesc (Some "mi_req_level") (SzInt 6%Z) TStr FrNone DfNone None false 32%N false None 0%Z false)
].

(** pynitf/nitf_tre_mtimfa.py, class TreMTIMFA (line 27), table at line 12. *)
Definition desc_TreMTIMFA : list row := [
  (* pynitf/nitf_tre_mtimfa.py:12 *) RField (Build_fdesc (Some "layer_id") (SzInt 36%Z) TStr FrNone DfNone None false 32%N false None 0%Z false);
  (* pynitf/nitf_tre_mtimfa.py:13 *) RField (Build_fdesc (Some "camera_set_index") (SzInt 3%Z) TInt FrNone DfNone None false 32%N false None 0%Z false);
  (* pynitf/nitf_tre_mtimfa.py:14 *) RField (Build_fdesc (Some "time_interval_index") (SzInt 6%Z) TInt FrNone DfNone None false 32%N false None 0%Z false);
  (* pynitf/nitf_tre_mtimfa.py:15 *) RField (Build_fdesc (Some "num_cameras_defined") (SzInt 3%Z) TInt FrNone DfNone None false 32%N false None 0%Z false);
  (* pynitf/nitf_tre_mtimfa.py:16 *)
  RLoop (EFld "num_cameras_defined" 0) [
    (* pynitf/nitf_tre_mtimfa.py:17 *) RField (Build_fdesc (Some "camera_id") (SzInt 36%Z) TStr FrNone DfNone None false 32%N false None 0%Z false);
    (* pynitf/nitf_tre_mtimfa.py:18 *) RField (Build_fdesc (Some "num_temp_blocks") (SzInt 3%Z) TInt FrNone DfNone None false 32%N false None 0%Z false);
    (* pynitf/nitf_tre_mtimfa.py:19 *)
    RLoop (EFld "num_temp_blocks" 1) [
      (* pynitf/nitf_tre_mtimfa.py:20 *) RField (Build_fdesc (Some "start_timestamp") (SzInt 24%Z) TStr FrNone DfNone None false 32%N false None 0%Z false);
      (* pynitf/nitf_tre_mtimfa.py:21 *) RField (Build_fdesc (Some "end_timestamp") (SzInt 24%Z) TStr FrNone DfNone None false 32%N false None 0%Z false);
      (* pynitf/nitf_tre_mtimfa.py:22 *) RField (Build_fdesc (Some "image_seg_index") (SzInt 3%Z) TInt FrNone DfNone None false 32%N false None 0%Z false)]]
].

(** pynitf/nitf_tre_mtimsa.py, class TreMTIMSA (line 42), table at line 13. *)
Definition desc_TreMTIMSA : list row := [
  (* pynitf/nitf_tre_mtimsa.py:13 *) RField (Build_fdesc (Some "image_seg_index") (SzInt 3%Z) TInt FrNone DfNone None false 32%N false None 0%Z false);
  (* pynitf/nitf_tre_mtimsa.py:14 *) RField (Build_fdesc (Some "geocoords_static") (SzInt 2%Z) TInt FrNone DfNone None false 32%N false None 0%Z false);
  (* pynitf/nitf_tre_mtimsa.py:15 *) RField (Build_fdesc (Some "layer_id") (SzInt 36%Z) TStr FrNone DfNone None false 32%N false None 0%Z false);
  (* pynitf/nitf_tre_mtimsa.py:16 *) RField (Build_fdesc (Some "camera_set_index") (SzInt 3%Z) TInt FrNone DfNone None false 32%N false None 0%Z false);
  (* pynitf/nitf_tre_mtimsa.py:17 *) RField (Build_fdesc (Some "camera_id") (SzInt 36%Z) TStr FrNone DfNone None false 32%N false None 0%Z false);
  (* pynitf/nitf_tre_mtimsa.py:18 *) RField (Build_fdesc (Some "time_interval_index") (SzInt 6%Z) TInt FrNone DfNone None false 32%N false None 0%Z false);
  (* pynitf/nitf_tre_mtimsa.py:19 *) RField (Build_fdesc (Some "temp_block_index") (SzInt 3%Z) TInt FrNone DfNone None false 32%N false None 0%Z false);
  (* pynitf/nitf_tre_mtimsa.py:20 *) RField (Build_fdesc (Some "nominal_frame_rate") (SzInt 13%Z) TFloat FrNone DfNone None false 32%N false None 0%Z false);
  (* pynitf/nitf_tre_mtimsa.py:21 *) RField (Build_fdesc (Some "reference_frame_num") (SzInt 9%Z) TInt FrNone DfNone None false 32%N false None 0%Z false);
  (* pynitf/nitf_tre_mtimsa.py:22 *) RField (Build_fdesc (Some "base_timestamp") (SzInt 24%Z) TStr FrNone DfNone None false 32%N false None 0%Z false);
  (* pynitf/nitf_tre_mtimsa.py:23 *) RField (Build_fdesc (Some "dt_multiplier") (SzInt 8%Z) (TData (KInt false)) FrNone DfNone None false 32%N false None 0%Z true);
  (* pynitf/nitf_tre_mtimsa.py:26 *) RField (Build_fdesc (Some "dt_size") (SzInt 1%Z) (TData (KInt false)) FrNone DfNone None false 32%N false None 0%Z true);
  (* pynitf/nitf_tre_mtimsa.py:29 *) RField (Build_fdesc (Some "number_frames") (SzInt 4%Z) (TData (KInt false)) FrNone DfNone None false 32%N false None 0%Z true);
  (* pynitf/nitf_tre_mtimsa.py:32 *) RField (Build_fdesc (Some "number_dt") (SzInt 4%Z) (TData (KInt false)) FrNone DfNone None false 32%N false None 0%Z true);
  (* pynitf/nitf_tre_mtimsa.py:35 *)
  RLoop (EFld "number_dt" 0) [
    (* pynitf/nitf_tre_mtimsa.py:36 *) RField (Build_fdesc (Some "dt") (SzExpr (EFld "dt_size" 0)) (TData (KInt false)) FrNone DfNone None false 32%N false None 0%Z true)]
].

(** pynitf/nitf_tre_piae.py, class TrePIAIMC (line 35), table at line 14. *)
Definition desc_TrePIAIMC : list row := [
  (* pynitf/nitf_tre_piae.py:14 *) RField (Build_fdesc (Some "cloudcvr") (SzInt 3%Z) TInt FrNone DfNone None true 32%N false None 0%Z false);
  (* pynitf/nitf_tre_piae.py:15 *) RField (Build_fdesc (Some "srp") (SzInt 1%Z) TStr FrNone DfNone None true 32%N false None 0%Z false);
  (* pynitf/nitf_tre_piae.py:16 *) RField (Build_fdesc (Some "sensormode") (SzInt 12%Z) TStr FrNone DfNone None true 32%N false None 0%Z false);
  (* pynitf/nitf_tre_piae.py:17 *) RField (Build_fdesc (Some "sensname") (SzInt 18%Z) TStr FrNone DfNone None true 32%N false None 0%Z false);
  (* pynitf/nitf_tre_piae.py:18 *) RField (Build_fdesc (Some "source") (SzInt 255%Z) TStr FrNone DfNone None true 32%N false None 0%Z false);
  (* pynitf/nitf_tre_piae.py:19 *) RField (Build_fdesc (Some "comgen") (SzInt 2%Z) TInt FrNone DfNone None true 45%N false None 0%Z false);
  (* pynitf/nitf_tre_piae.py:20 *) RField (Build_fdesc (Some "subqual") (SzInt 1%Z) TStr FrNone DfNone None true 32%N false None 0%Z false);
  (* pynitf/nitf_tre_piae.py:21 *) RField (Build_fdesc (Some "piamsnnum") (SzInt 7%Z) TStr FrNone DfNone None true 32%N false None 0%Z false);
  (* pynitf/nitf_tre_piae.py:22 *) RField (Build_fdesc (Some "camspecs") (SzInt 32%Z) TStr FrNone DfNone None true 32%N false None 0%Z false);
  (* pynitf/nitf_tre_piae.py:23 *) RField (Build_fdesc (Some "projid") (SzInt 2%Z) TStr FrNone DfNone None true 32%N false None 0%Z false);
  (* pynitf/nitf_tre_piae.py:24 *) RField (Build_fdesc (Some "generation") (SzInt 1%Z) TInt FrNone DfNone None true 45%N false None 0%Z false);
  (* pynitf/nitf_tre_piae.py:25 *) RField (Build_fdesc (Some "esd") (SzInt 1%Z) TStr FrNone DfNone None true 32%N false None 0%Z false);
  (* pynitf/nitf_tre_piae.py:26 *) RField (Build_fdesc (Some "othercond") (SzInt 2%Z) TStr FrNone DfNone None true 32%N false None 0%Z false);
  (* pynitf/nitf_tre_piae.py:27 *) RField (Build_fdesc (Some "mean_gsd") (SzInt 7%Z) TFloat (FrF (FsPct false true false 7 1 false false)) DfNone None true 32%N false None 0%Z false);
  (* pynitf/nitf_tre_piae.py:28 *) RField (Build_fdesc (Some "idatum") (SzInt 3%Z) TStr FrNone DfNone None true 32%N false None 0%Z false);
  (* pynitf/nitf_tre_piae.py:29 *) RField (Build_fdesc (Some "iellip") (SzInt 3%Z) TStr FrNone DfNone None true 32%N false None 0%Z false);
  (* pynitf/nitf_tre_piae.py:30 *) RField (Build_fdesc (Some "preproc") (SzInt 2%Z) TStr FrNone DfNone None true 32%N false None 0%Z false);
  (* pynitf/nitf_tre_piae.py:31 *) RField (Build_fdesc (Some "iproj") (SzInt 2%Z) TStr FrNone DfNone None true 32%N false None 0%Z false);
  (* pynitf/nitf_tre_piae.py:32 *) RField (Build_fdesc (Some "sattrack") (SzInt 8%Z) TInt FrNone DfNone None true 32%N false None 0%Z false)
].

(** pynitf/nitf_tre_pixmta.py, class TrePIXMTA (line 40), table at line 18. *)
Definition desc_TrePIXMTA : list row := [
  (* pynitf/nitf_tre_pixmta.py:18 *) RField (Build_fdesc (Some "numais") (SzInt 3%Z) TStr FrNone DfNone None false 32%N false None 0%Z false);
  (* pynitf/nitf_tre_pixmta.py:19 *)
  RLoop (EIf (ECmp CEq (EFld "numais" 0) (EStr (str "ALL"))) (EInt 0%Z) (EIntOf (EFld "numais" 0))) [
    (* pynitf/nitf_tre_pixmta.py:20 *) RField (Build_fdesc (Some "aisdlvl") (SzInt 3%Z) TInt FrNone DfNone None false 32%N false None 0%Z false)];
  (* pynitf/nitf_tre_pixmta.py:21 *) RField (Build_fdesc (Some "origin_x") (SzInt 14%Z) TFloat (FrF (FsPct true false false 14 7 true true)) DfNone None false 32%N false None 0%Z false);
  (* pynitf/nitf_tre_pixmta.py:22 *) RField (Build_fdesc (Some "origin_y") (SzInt 14%Z) TFloat (FrF (FsPct true false false 14 7 true true)) DfNone None false 32%N false None 0%Z false);
  (* pynitf/nitf_tre_pixmta.py:23 *) RField (Build_fdesc (Some "scale_x") (SzInt 14%Z) TFloat (FrF (FsPct true false false 14 7 true true)) DfNone None false 32%N false None 0%Z false);
  (* pynitf/nitf_tre_pixmta.py:24 *) RField (Build_fdesc (Some "scale_y") (SzInt 14%Z) TFloat (FrF (FsPct true false false 14 7 true true)) DfNone None false 32%N false None 0%Z false);
  (* pynitf/nitf_tre_pixmta.py:25 *) RField (Build_fdesc (Some "sample_mode") (SzInt 1%Z) TStr FrNone DfNone None false 32%N false None 0%Z false);
  (* pynitf/nitf_tre_pixmta.py:26 *) RField (Build_fdesc (Some "nummetrics") (SzInt 5%Z) TInt FrNone DfNone None false 32%N false None 0%Z false);
  (* pynitf/nitf_tre_pixmta.py:27 *) RField (Build_fdesc (Some "perband") (SzInt 1%Z) TStr FrNone DfNone None false 32%N false None 0%Z false);
  (* pynitf/nitf_tre_pixmta.py:28 *)
  RLoop (EFld "nummetrics" 0) [
    (* pynitf/nitf_tre_pixmta.py:29 *) RField (Build_fdesc (Some "description") (SzInt 40%Z) TStr FrNone DfNone None false 32%N false None 0%Z false);
    (* pynitf/nitf_tre_pixmta.py:30 *) RField (Build_fdesc (Some "unit") (SzInt 40%Z) TStr FrNone DfNone None false 32%N false None 0%Z false);
    (* pynitf/nitf_tre_pixmta.py:31 *) RField (Build_fdesc (Some "fittype") (SzInt 1%Z) TStr FrNone DfNone None false 32%N false None 0%Z false);
    (* pynitf/nitf_tre_pixmta.py:32 *) RField (Build_fdesc (Some "numcoef") (SzInt 1%Z) TInt FrNone DfNone (Some (ECmp CEq (EFld "fittype" 1) (EStr (str "P")))) false 32%N false None 0%Z false);
    (* pynitf/nitf_tre_pixmta.py:34 *)
    RLoop (EIf (ECmp CEq (EFld "fittype" 1) (EStr (str "D"))) (EInt 0%Z) (EIntOf (EFld "numcoef" 1))) [
      (* pynitf/nitf_tre_pixmta.py:35 *) RField (Build_fdesc (Some "coef") (SzInt 15%Z) TFloat (FrF (FsPct true false false 15 8 true true)) DfNone None false 32%N false None 0%Z false)]];
  (* pynitf/nitf_tre_pixmta.py:36 *) RField (Build_fdesc (Some "reserved_len") (SzInt 5%Z) TInt FrNone DfNone None false 32%N false None 0%Z false);
  (* pynitf/nitf_tre_pixmta.py:37 *) RField (Build_fdesc (Some "reserved") (SzExpr (EFld "reserved_len" 0)) (TData KBytes) FrNone DfNone None false 32%N false None 0%Z false)
].

(** pynitf/nitf_tre_pixqla.py, class TrePIXQLA (line 27), table at line 15. *)
Definition desc_TrePIXQLA : list row := [
  (* pynitf/nitf_tre_pixqla.py:15 *) RField (Build_fdesc (Some "numais") (SzInt 3%Z) TStr FrNone DfNone None false 32%N false None 0%Z false);
  (* pynitf/nitf_tre_pixqla.py:16 *)
  RLoop (EIf (ECmp CEq (EFld "numais" 0) (EStr (str "ALL"))) (EInt 0%Z) (EIntOf (EFld "numais" 0))) [
    (* pynitf/nitf_tre_pixqla.py:17 *) RField (Build_fdesc (Some "aisdlvl") (SzInt 3%Z) TInt FrNone DfNone None false 32%N false None 0%Z false)];
  (* pynitf/nitf_tre_pixqla.py:18 *) RField (Build_fdesc (Some "npixqual") (SzInt 4%Z) TInt FrNone DfNone None false 32%N false None 0%Z false);
  (* pynitf/nitf_tre_pixqla.py:20 *) RField (Build_fdesc (Some "pq_bit_value") (SzInt 1%Z) TStr FrNone (DfStr (str "1")) None false 32%N true None 0%Z false);
  (* pynitf/nitf_tre_pixqla.py:22 *)
  RLoop (EFld "npixqual" 0) [
    (* pynitf/nitf_tre_pixqla.py:23 *) RField (Build_fdesc (Some "pq_condition") (SzInt 40%Z) TStr FrNone DfNone None false 32%N false None 0%Z false)]
].

(** pynitf/nitf_tre_rpc.py, class TreRPC00B (line 52), table at line 29. *)
Definition desc_TreRPC00B : list row := [
  (* pynitf/nitf_tre_rpc.py:29 *) RField (Build_fdesc (Some "success") (SzInt 1%Z) TInt FrNone DfNone None false 32%N false None 0%Z false);
  (* pynitf/nitf_tre_rpc.py:30 *) RField (Build_fdesc (Some "err_bias") (SzInt 7%Z) TFloat (FrF (FsPct false true false 7 2 false false)) DfNone None false 32%N false None 0%Z false);
  (* pynitf/nitf_tre_rpc.py:31 *) RField (Build_fdesc (Some "err_rand") (SzInt 7%Z) TFloat (FrF (FsPct false true false 7 2 false false)) DfNone None false 32%N false None 0%Z false);
  (* pynitf/nitf_tre_rpc.py:32 *) RField (Build_fdesc (Some "line_off") (SzInt 6%Z) TInt FrNone DfNone None false 32%N false None 0%Z false);
  (* pynitf/nitf_tre_rpc.py:33 *) RField (Build_fdesc (Some "samp_off") (SzInt 5%Z) TInt FrNone DfNone None false 32%N false None 0%Z false);
  (* pynitf/nitf_tre_rpc.py:34 *) RField (Build_fdesc (Some "lat_off") (SzInt 8%Z) TFloat (FrF (FsPct true true false 8 4 false false)) DfNone None false 32%N false None 0%Z false);
  (* pynitf/nitf_tre_rpc.py:35 *) RField (Build_fdesc (Some "long_off") (SzInt 9%Z) TFloat (FrF (FsPct true true false 9 4 false false)) DfNone None false 32%N false None 0%Z false);
  (* pynitf/nitf_tre_rpc.py:36 *) RField (Build_fdesc (Some "height_off") (SzInt 5%Z) TInt FrNone DfNone None false 32%N false None 0%Z false);
  (* pynitf/nitf_tre_rpc.py:37 *) RField (Build_fdesc (Some "line_scale") (SzInt 6%Z) TInt FrNone DfNone None false 32%N false None 0%Z false);
  (* pynitf/nitf_tre_rpc.py:38 *) RField (Build_fdesc (Some "samp_scale") (SzInt 5%Z) TInt FrNone DfNone None false 32%N false None 0%Z false);
  (* pynitf/nitf_tre_rpc.py:39 *) RField (Build_fdesc (Some "lat_scale") (SzInt 8%Z) TFloat (FrF (FsPct true true false 8 4 false false)) DfNone None false 32%N false None 0%Z false);
  (* pynitf/nitf_tre_rpc.py:40 *) RField (Build_fdesc (Some "long_scale") (SzInt 9%Z) TFloat (FrF (FsPct true true false 9 4 false false)) DfNone None false 32%N false None 0%Z false);
  (* pynitf/nitf_tre_rpc.py:41 *) RField (Build_fdesc (Some "height_scale") (SzInt 5%Z) TInt (FrD (Build_dfmt true true false 5)) DfNone None false 32%N false None 0%Z false);
  (* pynitf/nitf_tre_rpc.py:42 *)
  RLoop (EInt 20%Z) [
    (* pynitf/nitf_tre_rpc.py:43 *) RField (Build_fdesc (Some "line_num_coeff") (SzInt 12%Z) TFloat (FrF (FsExt "_tre_rpc_coeff_format")) DfNone None false 32%N false None 0%Z false)];
  (* pynitf/nitf_tre_rpc.py:44 *)
  RLoop (EInt 20%Z) [
    (* pynitf/nitf_tre_rpc.py:45 *) RField (Build_fdesc (Some "line_den_coeff") (SzInt 12%Z) TFloat (FrF (FsExt "_tre_rpc_coeff_format")) DfNone None false 32%N false None 0%Z false)];
  (* pynitf/nitf_tre_rpc.py:46 *)
  RLoop (EInt 20%Z) [
    (* pynitf/nitf_tre_rpc.py:47 *) RField (Build_fdesc (Some "samp_num_coeff") (SzInt 12%Z) TFloat (FrF (FsExt "_tre_rpc_coeff_format")) DfNone None false 32%N false None 0%Z false)];
  (* pynitf/nitf_tre_rpc.py:48 *)
  RLoop (EInt 20%Z) [
    (* pynitf/nitf_tre_rpc.py:49 *) RField (Build_fdesc (Some "samp_den_coeff") (SzInt 12%Z) TFloat (FrF (FsExt "_tre_rpc_coeff_format")) DfNone None false 32%N false None 0%Z false)]
].

(** pynitf/nitf_tre_rpc.py, class TreRPC00A (line 66), table at line 29. *)
Definition desc_TreRPC00A : list row := [
  (* pynitf/nitf_tre_rpc.py:29 *) RField (Build_fdesc (Some "success") (SzInt 1%Z) TInt FrNone DfNone None false 32%N false None 0%Z false);
  (* pynitf/nitf_tre_rpc.py:30 *) RField (Build_fdesc (Some "err_bias") (SzInt 7%Z) TFloat (FrF (FsPct false true false 7 2 false false)) DfNone None false 32%N false None 0%Z false);
  (* pynitf/nitf_tre_rpc.py:31 *) RField (Build_fdesc (Some "err_rand") (SzInt 7%Z) TFloat (FrF (FsPct false true false 7 2 false false)) DfNone None false 32%N false None 0%Z false);
  (* pynitf/nitf_tre_rpc.py:32 *) RField (Build_fdesc (Some "line_off") (SzInt 6%Z) TInt FrNone DfNone None false 32%N false None 0%Z false);
  (* pynitf/nitf_tre_rpc.py:33 *) RField (Build_fdesc (Some "samp_off") (SzInt 5%Z) TInt FrNone DfNone None false 32%N false None 0%Z false);
  (* pynitf/nitf_tre_rpc.py:34 *) RField (Build_fdesc (Some "lat_off") (SzInt 8%Z) TFloat (FrF (FsPct true true false 8 4 false false)) DfNone None false 32%N false None 0%Z false);
  (* pynitf/nitf_tre_rpc.py:35 *) RField (Build_fdesc (Some "long_off") (SzInt 9%Z) TFloat (FrF (FsPct true true false 9 4 false false)) DfNone None false 32%N false None 0%Z false);
  (* pynitf/nitf_tre_rpc.py:36 *) RField (Build_fdesc (Some "height_off") (SzInt 5%Z) TInt FrNone DfNone None false 32%N false None 0%Z false);
  (* pynitf/nitf_tre_rpc.py:37 *) RField (Build_fdesc (Some "line_scale") (SzInt 6%Z) TInt FrNone DfNone None false 32%N false None 0%Z false);
  (* pynitf/nitf_tre_rpc.py:38 *) RField (Build_fdesc (Some "samp_scale") (SzInt 5%Z) TInt FrNone DfNone None false 32%N false None 0%Z false);
  (* pynitf/nitf_tre_rpc.py:39 *) RField (Build_fdesc (Some "lat_scale") (SzInt 8%Z) TFloat (FrF (FsPct true true false 8 4 false false)) DfNone None false 32%N false None 0%Z false);
  (* pynitf/nitf_tre_rpc.py:40 *) RField (Build_fdesc (Some "long_scale") (SzInt 9%Z) TFloat (FrF (FsPct true true false 9 4 false false)) DfNone None false 32%N false None 0%Z false);
  (* pynitf/nitf_tre_rpc.py:41 *) RField (Build_fdesc (Some "height_scale") (SzInt 5%Z) TInt (FrD (Build_dfmt true true false 5)) DfNone None false 32%N false None 0%Z false);
  (* pynitf/nitf_tre_rpc.py:42 *)
  RLoop (EInt 20%Z) [
    (* pynitf/nitf_tre_rpc.py:43 *) RField (Build_fdesc (Some "line_num_coeff") (SzInt 12%Z) TFloat (FrF (FsExt "_tre_rpc_coeff_format")) DfNone None false 32%N false None 0%Z false)];
  (* pynitf/nitf_tre_rpc.py:44 *)
  RLoop (EInt 20%Z) [
    (* pynitf/nitf_tre_rpc.py:45 *) RField (Build_fdesc (Some "line_den_coeff") (SzInt 12%Z) TFloat (FrF (FsExt "_tre_rpc_coeff_format")) DfNone None false 32%N false None 0%Z false)];
  (* pynitf/nitf_tre_rpc.py:46 *)
  RLoop (EInt 20%Z) [
    (* pynitf/nitf_tre_rpc.py:47 *) RField (Build_fdesc (Some "samp_num_coeff") (SzInt 12%Z) TFloat (FrF (FsExt "_tre_rpc_coeff_format")) DfNone None false 32%N false None 0%Z false)];
  (* pynitf/nitf_tre_rpc.py:48 *)
  RLoop (EInt 20%Z) [
    (* pynitf/nitf_tre_rpc.py:49 *) RField (Build_fdesc (Some "samp_den_coeff") (SzInt 12%Z) TFloat (FrF (FsExt "_tre_rpc_coeff_format")) DfNone None false 32%N false None 0%Z false)]
].

(** pynitf/nitf_tre_rsmapa.py, class TreRSMAPA (line 74), table at line 17. *)
Definition desc_TreRSMAPA : list row := [
  (* pynitf/nitf_tre_rsmapa.py:17 *) RField (Build_fdesc (Some "iid") (SzInt 80%Z) TStr FrNone DfNone None true 32%N false None 0%Z false);
  (* pynitf/nitf_tre_rsmapa.py:18 *) RField (Build_fdesc (Some "edition") (SzInt 40%Z) TStr FrNone DfNone None false 32%N false None 0%Z false);
  (* pynitf/nitf_tre_rsmapa.py:19 *) RField (Build_fdesc (Some "tid") (SzInt 40%Z) TStr FrNone DfNone None true 32%N false None 0%Z false);
  (* pynitf/nitf_tre_rsmapa.py:20 *) RField (Build_fdesc (Some "npar") (SzInt 2%Z) TInt FrNone DfNone None false 32%N false None 0%Z false);
  (* pynitf/nitf_tre_rsmapa.py:21 *) RField (Build_fdesc (Some "xuol") (SzInt 21%Z) TFloat (FrF (FsPct false false false 21 14 true true)) DfNone None false 32%N false None 0%Z false);
  (* pynitf/nitf_tre_rsmapa.py:22 *) RField (Build_fdesc (Some "yuol") (SzInt 21%Z) TFloat (FrF (FsPct false false false 21 14 true true)) DfNone None false 32%N false None 0%Z false);
  (* pynitf/nitf_tre_rsmapa.py:23 *) RField (Build_fdesc (Some "zuol") (SzInt 21%Z) TFloat (FrF (FsPct false false false 21 14 true true)) DfNone None false 32%N false None 0%Z false);
  (* pynitf/nitf_tre_rsmapa.py:24 *) RField (Build_fdesc (Some "xuxl") (SzInt 21%Z) TFloat (FrF (FsPct false false false 21 14 true true)) DfNone None false 32%N false None 0%Z false);
  (* pynitf/nitf_tre_rsmapa.py:25 *) RField (Build_fdesc (Some "xuyl") (SzInt 21%Z) TFloat (FrF (FsPct false false false 21 14 true true)) DfNone None false 32%N false None 0%Z false);
  (* pynitf/nitf_tre_rsmapa.py:26 *) RField (Build_fdesc (Some "xuzl") (SzInt 21%Z) TFloat (FrF (FsPct false false false 21 14 true true)) DfNone None false 32%N false None 0%Z false);
  (* pynitf/nitf_tre_rsmapa.py:27 *) RField (Build_fdesc (Some "yuxl") (SzInt 21%Z) TFloat (FrF (FsPct false false false 21 14 true true)) DfNone None false 32%N false None 0%Z false);
  (* pynitf/nitf_tre_rsmapa.py:28 *) RField (Build_fdesc (Some "yuyl") (SzInt 21%Z) TFloat (FrF (FsPct false false false 21 14 true true)) DfNone None false 32%N false None 0%Z false);
  (* pynitf/nitf_tre_rsmapa.py:29 *) RField (Build_fdesc (Some "yuzl") (SzInt 21%Z) TFloat (FrF (FsPct false false false 21 14 true true)) DfNone None false 32%N false None 0%Z false);
  (* pynitf/nitf_tre_rsmapa.py:30 *) RField (Build_fdesc (Some "zuxl") (SzInt 21%Z) TFloat (FrF (FsPct false false false 21 14 true true)) DfNone None false 32%N false None 0%Z false);
  (* pynitf/nitf_tre_rsmapa.py:31 *) RField (Build_fdesc (Some "zuyl") (SzInt 21%Z) TFloat (FrF (FsPct false false false 21 14 true true)) DfNone None false 32%N false None 0%Z false);
  (* pynitf/nitf_tre_rsmapa.py:32 *) RField (Build_fdesc (Some "zuzl") (SzInt 21%Z) TFloat (FrF (FsPct false false false 21 14 true true)) DfNone None false 32%N false None 0%Z false);
  (* pynitf/nitf_tre_rsmapa.py:33 *) RField (Build_fdesc (Some "ir0") (SzInt 2%Z) TInt FrNone DfNone None true 32%N false None 0%Z false);
  (* pynitf/nitf_tre_rsmapa.py:34 *) RField (Build_fdesc (Some "irx") (SzInt 2%Z) TInt FrNone DfNone None true 32%N false None 0%Z false);
  (* pynitf/nitf_tre_rsmapa.py:35 *) RField (Build_fdesc (Some "iry") (SzInt 2%Z) TInt FrNone DfNone None true 32%N false None 0%Z false);
  (* pynitf/nitf_tre_rsmapa.py:36 *) RField (Build_fdesc (Some "irz") (SzInt 2%Z) TInt FrNone DfNone None true 32%N false None 0%Z false);
  (* pynitf/nitf_tre_rsmapa.py:37 *) RField (Build_fdesc (Some "irxx") (SzInt 2%Z) TInt FrNone DfNone None true 32%N false None 0%Z false);
  (* pynitf/nitf_tre_rsmapa.py:38 *) RField (Build_fdesc (Some "irxy") (SzInt 2%Z) TInt FrNone DfNone None true 32%N false None 0%Z false);
  (* pynitf/nitf_tre_rsmapa.py:39 *) RField (Build_fdesc (Some "irxz") (SzInt 2%Z) TInt FrNone DfNone None true 32%N false None 0%Z false);
  (* pynitf/nitf_tre_rsmapa.py:40 *) RField (Build_fdesc (Some "iryy") (SzInt 2%Z) TInt FrNone DfNone None true 32%N false None 0%Z false);
  (* pynitf/nitf_tre_rsmapa.py:41 *) RField (Build_fdesc (Some "iryz") (SzInt 2%Z) TInt FrNone DfNone None true 32%N false None 0%Z false);
  (* pynitf/nitf_tre_rsmapa.py:42 *) RField (Build_fdesc (Some "irzz") (SzInt 2%Z) TInt FrNone DfNone None true 32%N false None 0%Z false);
  (* pynitf/nitf_tre_rsmapa.py:43 *) RField (Build_fdesc (Some "ic0") (SzInt 2%Z) TInt FrNone DfNone None true 32%N false None 0%Z false);
  (* pynitf/nitf_tre_rsmapa.py:44 *) RField (Build_fdesc (Some "icx") (SzInt 2%Z) TInt FrNone DfNone None true 32%N false None 0%Z false);
  (* pynitf/nitf_tre_rsmapa.py:45 *) RField (Build_fdesc (Some "icy") (SzInt 2%Z) TInt FrNone DfNone None true 32%N false None 0%Z false);
  (* pynitf/nitf_tre_rsmapa.py:46 *) RField (Build_fdesc (Some "icz") (SzInt 2%Z) TInt FrNone DfNone None true 32%N false None 0%Z false);
  (* pynitf/nitf_tre_rsmapa.py:47 *) RField (Build_fdesc (Some "icxx") (SzInt 2%Z) TInt FrNone DfNone None true 32%N false None 0%Z false);
  (* pynitf/nitf_tre_rsmapa.py:48 *) RField (Build_fdesc (Some "icxy") (SzInt 2%Z) TInt FrNone DfNone None true 32%N false None 0%Z false);
  (* pynitf/nitf_tre_rsmapa.py:49 *) RField (Build_fdesc (Some "icxz") (SzInt 2%Z) TInt FrNone DfNone None true 32%N false None 0%Z false);
  (* pynitf/nitf_tre_rsmapa.py:50 *) RField (Build_fdesc (Some "icyy") (SzInt 2%Z) TInt FrNone DfNone None true 32%N false None 0%Z false);
  (* pynitf/nitf_tre_rsmapa.py:51 *) RField (Build_fdesc (Some "icyz") (SzInt 2%Z) TInt FrNone DfNone None true 32%N false None 0%Z false);
  (* pynitf/nitf_tre_rsmapa.py:52 *) RField (Build_fdesc (Some "iczz") (SzInt 2%Z) TInt FrNone DfNone None true 32%N false None 0%Z false);
  (* pynitf/nitf_tre_rsmapa.py:53 *) RField (Build_fdesc (Some "gx0") (SzInt 2%Z) TInt FrNone DfNone None true 32%N false None 0%Z false);
  (* pynitf/nitf_tre_rsmapa.py:54 *) RField (Build_fdesc (Some "gy0") (SzInt 2%Z) TInt FrNone DfNone None true 32%N false None 0%Z false);
  (* pynitf/nitf_tre_rsmapa.py:55 *) RField (Build_fdesc (Some "gz0") (SzInt 2%Z) TInt FrNone DfNone None true 32%N false None 0%Z false);
  (* pynitf/nitf_tre_rsmapa.py:56 *) RField (Build_fdesc (Some "gxr") (SzInt 2%Z) TInt FrNone DfNone None true 32%N false None 0%Z false);
  (* pynitf/nitf_tre_rsmapa.py:57 *) RField (Build_fdesc (Some "gyr") (SzInt 2%Z) TInt FrNone DfNone None true 32%N false None 0%Z false);
  (* pynitf/nitf_tre_rsmapa.py:58 *) RField (Build_fdesc (Some "gzr") (SzInt 2%Z) TInt FrNone DfNone None true 32%N false None 0%Z false);
  (* pynitf/nitf_tre_rsmapa.py:59 *) RField (Build_fdesc (Some "gs") (SzInt 2%Z) TInt FrNone DfNone None true 32%N false None 0%Z false);
  (* pynitf/nitf_tre_rsmapa.py:60 *) RField (Build_fdesc (Some "gxx") (SzInt 2%Z) TInt FrNone DfNone None true 32%N false None 0%Z false);
  (* pynitf/nitf_tre_rsmapa.py:61 *) RField (Build_fdesc (Some "gxy") (SzInt 2%Z) TInt FrNone DfNone None true 32%N false None 0%Z false);
  (* pynitf/nitf_tre_rsmapa.py:62 *) RField (Build_fdesc (Some "gxz") (SzInt 2%Z) TInt FrNone DfNone None true 32%N false None 0%Z false);
  (* pynitf/nitf_tre_rsmapa.py:63 *) RField (Build_fdesc (Some "gyx") (SzInt 2%Z) TInt FrNone DfNone None true 32%N false None 0%Z false);
  (* pynitf/nitf_tre_rsmapa.py:64 *) RField (Build_fdesc (Some "gyy") (SzInt 2%Z) TInt FrNone DfNone None true 32%N false None 0%Z false);
  (* pynitf/nitf_tre_rsmapa.py:65 *) RField (Build_fdesc (Some "gyz") (SzInt 2%Z) TInt FrNone DfNone None true 32%N false None 0%Z false);
  (* pynitf/nitf_tre_rsmapa.py:66 *) RField (Build_fdesc (Some "gzx") (SzInt 2%Z) TInt FrNone DfNone None true 32%N false None 0%Z false);
  (* pynitf/nitf_tre_rsmapa.py:67 *) RField (Build_fdesc (Some "gzy") (SzInt 2%Z) TInt FrNone DfNone None true 32%N false None 0%Z false);
  (* pynitf/nitf_tre_rsmapa.py:68 *) RField (Build_fdesc (Some "gzz") (SzInt 2%Z) TInt FrNone DfNone None true 32%N false None 0%Z false);
  (* pynitf/nitf_tre_rsmapa.py:69 *)
  RLoop (EFld "npar" 0) [
    (* pynitf/nitf_tre_rsmapa.py:70 *) RField (Build_fdesc (Some "parval") (SzInt 21%Z) TFloat (FrF (FsPct false false false 21 14 true true)) DfNone None false 32%N false None 0%Z false)]
].

(** pynitf/nitf_tre_rsmapb.py, class TreRSMAPB (line 70), table at line 18. *)
Definition desc_TreRSMAPB : list row := [
  (* pynitf/nitf_tre_rsmapb.py:18 *) RField (Build_fdesc (Some "iid") (SzInt 80%Z) TStr FrNone DfNone None true 32%N false None 0%Z false);
  (* pynitf/nitf_tre_rsmapb.py:19 *) RField (Build_fdesc (Some "edition") (SzInt 40%Z) TStr FrNone DfNone None false 32%N false None 0%Z false);
  (* pynitf/nitf_tre_rsmapb.py:20 *) RField (Build_fdesc (Some "tid") (SzInt 40%Z) TStr FrNone DfNone None false 32%N false None 0%Z false);
  (* pynitf/nitf_tre_rsmapb.py:21 *) RField (Build_fdesc (Some "npar") (SzInt 2%Z) TInt FrNone DfNone None false 32%N false None 0%Z false);
  (* pynitf/nitf_tre_rsmapb.py:22 *) RField (Build_fdesc (Some "aptyp") (SzInt 1%Z) TStr FrNone DfNone None false 32%N false None 0%Z false);
  (* pynitf/nitf_tre_rsmapb.py:23 *) RField (Build_fdesc (Some "loctyp") (SzInt 1%Z) TStr FrNone DfNone None false 32%N false None 0%Z false);
  (* pynitf/nitf_tre_rsmapb.py:24 *) RField (Build_fdesc (Some "nsfx") (SzInt 21%Z) TFloat (FrF (FsPct true false false 21 14 true true)) DfNone None false 32%N false None 0%Z false);
  (* pynitf/nitf_tre_rsmapb.py:25 *) RField (Build_fdesc (Some "nsfy") (SzInt 21%Z) TFloat (FrF (FsPct true false false 21 14 true true)) DfNone None false 32%N false None 0%Z false);
  (* pynitf/nitf_tre_rsmapb.py:26 *) RField (Build_fdesc (Some "nsfz") (SzInt 21%Z) TFloat (FrF (FsPct true false false 21 14 true true)) DfNone None false 32%N false None 0%Z false);
  (* pynitf/nitf_tre_rsmapb.py:27 *) RField (Build_fdesc (Some "noffx") (SzInt 21%Z) TFloat (FrF (FsPct true false false 21 14 true true)) DfNone None false 32%N false None 0%Z false);
  (* pynitf/nitf_tre_rsmapb.py:28 *) RField (Build_fdesc (Some "noffy") (SzInt 21%Z) TFloat (FrF (FsPct true false false 21 14 true true)) DfNone None false 32%N false None 0%Z false);
  (* pynitf/nitf_tre_rsmapb.py:29 *) RField (Build_fdesc (Some "noffz") (SzInt 21%Z) TFloat (FrF (FsPct true false false 21 14 true true)) DfNone None false 32%N false None 0%Z false);
  (* pynitf/nitf_tre_rsmapb.py:30 *) RField (Build_fdesc (Some "xuol") (SzInt 21%Z) TFloat (FrF (FsPct true false false 21 14 true true)) DfNone None false 32%N false None 0%Z false);
  (* pynitf/nitf_tre_rsmapb.py:31 *) RField (Build_fdesc (Some "yuol") (SzInt 21%Z) TFloat (FrF (FsPct true false false 21 14 true true)) DfNone None false 32%N false None 0%Z false);
  (* pynitf/nitf_tre_rsmapb.py:32 *) RField (Build_fdesc (Some "zuol") (SzInt 21%Z) TFloat (FrF (FsPct true false false 21 14 true true)) DfNone None false 32%N false None 0%Z false);
  (* pynitf/nitf_tre_rsmapb.py:33 *) RField (Build_fdesc (Some "xuxl") (SzInt 21%Z) TFloat (FrF (FsPct true false false 21 14 true true)) DfNone None false 32%N false None 0%Z false);
  (* pynitf/nitf_tre_rsmapb.py:34 *) RField (Build_fdesc (Some "xuyl") (SzInt 21%Z) TFloat (FrF (FsPct true false false 21 14 true true)) DfNone None false 32%N false None 0%Z false);
  (* pynitf/nitf_tre_rsmapb.py:35 *) RField (Build_fdesc (Some "xuzl") (SzInt 21%Z) TFloat (FrF (FsPct true false false 21 14 true true)) DfNone None false 32%N false None 0%Z false);
  (* pynitf/nitf_tre_rsmapb.py:36 *) RField (Build_fdesc (Some "yuxl") (SzInt 21%Z) TFloat (FrF (FsPct true false false 21 14 true true)) DfNone None false 32%N false None 0%Z false);
  (* pynitf/nitf_tre_rsmapb.py:37 *) RField (Build_fdesc (Some "yuyl") (SzInt 21%Z) TFloat (FrF (FsPct true false false 21 14 true true)) DfNone None false 32%N false None 0%Z false);
  (* pynitf/nitf_tre_rsmapb.py:38 *) RField (Build_fdesc (Some "yuzl") (SzInt 21%Z) TFloat (FrF (FsPct true false false 21 14 true true)) DfNone None false 32%N false None 0%Z false);
  (* pynitf/nitf_tre_rsmapb.py:39 *) RField (Build_fdesc (Some "zuxl") (SzInt 21%Z) TFloat (FrF (FsPct true false false 21 14 true true)) DfNone None false 32%N false None 0%Z false);
  (* pynitf/nitf_tre_rsmapb.py:40 *) RField (Build_fdesc (Some "zuyl") (SzInt 21%Z) TFloat (FrF (FsPct true false false 21 14 true true)) DfNone None false 32%N false None 0%Z false);
  (* pynitf/nitf_tre_rsmapb.py:41 *) RField (Build_fdesc (Some "zuzl") (SzInt 21%Z) TFloat (FrF (FsPct true false false 21 14 true true)) DfNone None false 32%N false None 0%Z false);
  (* pynitf/nitf_tre_rsmapb.py:42 *) RField (Build_fdesc (Some "apbase") (SzInt 1%Z) TStr FrNone DfNone None false 32%N false None 0%Z false);
  (* pynitf/nitf_tre_rsmapb.py:43 *) RField (Build_fdesc (Some "nisap") (SzInt 2%Z) TInt FrNone DfNone (Some (ECmp CEq (EFld "aptyp" 0) (EStr (str "I")))) false 32%N false None 0%Z false);
  (* pynitf/nitf_tre_rsmapb.py:44 *) RField (Build_fdesc (Some "nisapr") (SzInt 2%Z) TInt FrNone DfNone (Some (ECmp CEq (EFld "aptyp" 0) (EStr (str "I")))) false 32%N false None 0%Z false);
  (* pynitf/nitf_tre_rsmapb.py:45 *)
  RLoop (EIf (ECmp CEq (EFld "aptyp" 0) (EStr (str "G"))) (EInt 0%Z) (EIntOf (EFld "nisapr" 0))) [
    (* pynitf/nitf_tre_rsmapb.py:46 *) RField (Build_fdesc (Some "xpwrr") (SzInt 1%Z) TInt FrNone DfNone (Some (ECmp CEq (EFld "aptyp" 0) (EStr (str "I")))) false 32%N false None 0%Z false);
    (* pynitf/nitf_tre_rsmapb.py:47 *) RField (Build_fdesc (Some "ypwrr") (SzInt 1%Z) TInt FrNone DfNone (Some (ECmp CEq (EFld "aptyp" 0) (EStr (str "I")))) false 32%N false None 0%Z false);
    (* pynitf/nitf_tre_rsmapb.py:48 *) RField (Build_fdesc (Some "zpwrr") (SzInt 1%Z) TInt FrNone DfNone (Some (ECmp CEq (EFld "aptyp" 0) (EStr (str "I")))) false 32%N false None 0%Z false)];
  (* pynitf/nitf_tre_rsmapb.py:50 *) RField (Build_fdesc (Some "nisapc") (SzInt 2%Z) TInt FrNone DfNone (Some (ECmp CEq (EFld "aptyp" 0) (EStr (str "I")))) false 32%N false None 0%Z false);
  (* pynitf/nitf_tre_rsmapb.py:51 *)
  RLoop (EIf (ECmp CEq (EFld "aptyp" 0) (EStr (str "G"))) (EInt 0%Z) (EIntOf (EFld "nisapc" 0))) [
    (* pynitf/nitf_tre_rsmapb.py:52 *) RField (Build_fdesc (Some "xpwrc") (SzInt 1%Z) TInt FrNone DfNone (Some (ECmp CEq (EFld "aptyp" 0) (EStr (str "I")))) false 32%N false None 0%Z false);
    (* pynitf/nitf_tre_rsmapb.py:53 *) RField (Build_fdesc (Some "ypwrc") (SzInt 1%Z) TInt FrNone DfNone (Some (ECmp CEq (EFld "aptyp" 0) (EStr (str "I")))) false 32%N false None 0%Z false);
    (* pynitf/nitf_tre_rsmapb.py:54 *) RField (Build_fdesc (Some "zpwrc") (SzInt 1%Z) TInt FrNone DfNone (Some (ECmp CEq (EFld "aptyp" 0) (EStr (str "I")))) false 32%N false None 0%Z false)];
  (* pynitf/nitf_tre_rsmapb.py:56 *) RField (Build_fdesc (Some "ngsap") (SzInt 2%Z) TInt FrNone DfNone (Some (ECmp CEq (EFld "aptyp" 0) (EStr (str "G")))) false 32%N false None 0%Z false);
  (* pynitf/nitf_tre_rsmapb.py:57 *)
  RLoop (EIf (ECmp CEq (EFld "aptyp" 0) (EStr (str "I"))) (EInt 0%Z) (EIntOf (EFld "ngsap" 0))) [
    (* pynitf/nitf_tre_rsmapb.py:58 *) RField (Build_fdesc (Some "gsapid") (SzInt 4%Z) TStr FrNone DfNone (Some (ECmp CEq (EFld "aptyp" 0) (EStr (str "G")))) false 32%N false None 0%Z false)];
  (* pynitf/nitf_tre_rsmapb.py:62 *)
  RLoop (EIf (ECmp CEq (EFld "apbase" 0) (EStr (str "N"))) (EInt 0%Z) (EIf (ECmp CEq (EFld "aptyp" 0) (EStr (str "I"))) (EIntOf (EMul (EFld "npar" 0) (EFld "nisap" 0))) (EIntOf (EMul (EFld "npar" 0) (EFld "ngsap" 0))))) [
    (* pynitf/nitf_tre_rsmapb.py:63 *) RField (Build_fdesc (Some "ael") (SzInt 21%Z) TFloat (FrF (FsPct true false false 21 14 true true)) DfNone (Some (ECmp CEq (EFld "apbase" 0) (EStr (str "Y")))) false 32%N false None 0%Z false)];
  (* pynitf/nitf_tre_rsmapb.py:65 *)
  RLoop (EFld "npar" 0) [
    (* pynitf/nitf_tre_rsmapb.py:66 *) RField (Build_fdesc (Some "parval") (SzInt 21%Z) TFloat (FrF (FsPct true false false 21 14 true true)) DfNone None false 32%N false None 0%Z false)]
].

(** pynitf/nitf_tre_rsmdca.py, class TreRSMDCA (line 81), table at line 17. *)
Definition desc_TreRSMDCA : list row := [
  (* pynitf/nitf_tre_rsmdca.py:17 *) RField (Build_fdesc (Some "iid") (SzInt 80%Z) TStr FrNone DfNone None true 32%N false None 0%Z false);
  (* pynitf/nitf_tre_rsmdca.py:18 *) RField (Build_fdesc (Some "edition") (SzInt 40%Z) TStr FrNone DfNone None false 32%N false None 0%Z false);
  (* pynitf/nitf_tre_rsmdca.py:19 *) RField (Build_fdesc (Some "tid") (SzInt 40%Z) TStr FrNone DfNone None true 32%N false None 0%Z false);
  (* pynitf/nitf_tre_rsmdca.py:20 *) RField (Build_fdesc (Some "npar") (SzInt 2%Z) TInt FrNone DfNone None false 32%N false None 0%Z false);
  (* pynitf/nitf_tre_rsmdca.py:21 *) RField (Build_fdesc (Some "nimge") (SzInt 3%Z) TInt FrNone DfNone None false 32%N false None 0%Z false);
  (* pynitf/nitf_tre_rsmdca.py:22 *) RField (Build_fdesc (Some "npart") (SzInt 5%Z) TInt FrNone DfNone None false 32%N false None 0%Z false);
  (* pynitf/nitf_tre_rsmdca.py:23 *)
  RLoop (EFld "nimge" 0) [
    (* pynitf/nitf_tre_rsmdca.py:24 *) RField (Build_fdesc (Some "iidi") (SzInt 80%Z) TStr FrNone DfNone None false 32%N false None 0%Z false);
    (* pynitf/nitf_tre_rsmdca.py:25 *) RField (Build_fdesc (Some "npari") (SzInt 2%Z) TInt FrNone DfNone None false 32%N false None 0%Z false)];
  (* pynitf/nitf_tre_rsmdca.py:27 *) RField (Build_fdesc (Some "xuol") (SzInt 21%Z) TFloat (FrF (FsPct false false false 21 14 true true)) DfNone None false 32%N false None 0%Z false);
  (* pynitf/nitf_tre_rsmdca.py:28 *) RField (Build_fdesc (Some "yuol") (SzInt 21%Z) TFloat (FrF (FsPct false false false 21 14 true true)) DfNone None false 32%N false None 0%Z false);
  (* pynitf/nitf_tre_rsmdca.py:29 *) RField (Build_fdesc (Some "zuol") (SzInt 21%Z) TFloat (FrF (FsPct false false false 21 14 true true)) DfNone None false 32%N false None 0%Z false);
  (* pynitf/nitf_tre_rsmdca.py:30 *) RField (Build_fdesc (Some "xuxl") (SzInt 21%Z) TFloat (FrF (FsPct false false false 21 14 true true)) DfNone None false 32%N false None 0%Z false);
  (* pynitf/nitf_tre_rsmdca.py:31 *) RField (Build_fdesc (Some "xuyl") (SzInt 21%Z) TFloat (FrF (FsPct false false false 21 14 true true)) DfNone None false 32%N false None 0%Z false);
  (* pynitf/nitf_tre_rsmdca.py:32 *) RField (Build_fdesc (Some "xuzl") (SzInt 21%Z) TFloat (FrF (FsPct false false false 21 14 true true)) DfNone None false 32%N false None 0%Z false);
  (* pynitf/nitf_tre_rsmdca.py:33 *) RField (Build_fdesc (Some "yuxl") (SzInt 21%Z) TFloat (FrF (FsPct false false false 21 14 true true)) DfNone None false 32%N false None 0%Z false);
  (* pynitf/nitf_tre_rsmdca.py:34 *) RField (Build_fdesc (Some "yuyl") (SzInt 21%Z) TFloat (FrF (FsPct false false false 21 14 true true)) DfNone None false 32%N false None 0%Z false);
  (* pynitf/nitf_tre_rsmdca.py:35 *) RField (Build_fdesc (Some "yuzl") (SzInt 21%Z) TFloat (FrF (FsPct false false false 21 14 true true)) DfNone None false 32%N false None 0%Z false);
  (* pynitf/nitf_tre_rsmdca.py:36 *) RField (Build_fdesc (Some "zuxl") (SzInt 21%Z) TFloat (FrF (FsPct false false false 21 14 true true)) DfNone None false 32%N false None 0%Z false);
  (* pynitf/nitf_tre_rsmdca.py:37 *) RField (Build_fdesc (Some "zuyl") (SzInt 21%Z) TFloat (FrF (FsPct false false false 21 14 true true)) DfNone None false 32%N false None 0%Z false);
  (* pynitf/nitf_tre_rsmdca.py:38 *) RField (Build_fdesc (Some "zuzl") (SzInt 21%Z) TFloat (FrF (FsPct false false false 21 14 true true)) DfNone None false 32%N false None 0%Z false);
  (* pynitf/nitf_tre_rsmdca.py:39 *) RField (Build_fdesc (Some "ir0") (SzInt 2%Z) TInt FrNone DfNone None true 32%N false None 0%Z false);
  (* pynitf/nitf_tre_rsmdca.py:40 *) RField (Build_fdesc (Some "irx") (SzInt 2%Z) TInt FrNone DfNone None true 32%N false None 0%Z false);
  (* pynitf/nitf_tre_rsmdca.py:41 *) RField (Build_fdesc (Some "iry") (SzInt 2%Z) TInt FrNone DfNone None true 32%N false None 0%Z false);
  (* pynitf/nitf_tre_rsmdca.py:42 *) RField (Build_fdesc (Some "irz") (SzInt 2%Z) TInt FrNone DfNone None true 32%N false None 0%Z false);
  (* pynitf/nitf_tre_rsmdca.py:43 *) RField (Build_fdesc (Some "irxx") (SzInt 2%Z) TInt FrNone DfNone None true 32%N false None 0%Z false);
  (* pynitf/nitf_tre_rsmdca.py:44 *) RField (Build_fdesc (Some "irxy") (SzInt 2%Z) TInt FrNone DfNone None true 32%N false None 0%Z false);
  (* pynitf/nitf_tre_rsmdca.py:45 *) RField (Build_fdesc (Some "irxz") (SzInt 2%Z) TInt FrNone DfNone None true 32%N false None 0%Z false);
  (* pynitf/nitf_tre_rsmdca.py:46 *) RField (Build_fdesc (Some "iryy") (SzInt 2%Z) TInt FrNone DfNone None true 32%N false None 0%Z false);
  (* pynitf/nitf_tre_rsmdca.py:47 *) RField (Build_fdesc (Some "iryz") (SzInt 2%Z) TInt FrNone DfNone None true 32%N false None 0%Z false);
  (* pynitf/nitf_tre_rsmdca.py:48 *) RField (Build_fdesc (Some "irzz") (SzInt 2%Z) TInt FrNone DfNone None true 32%N false None 0%Z false);
  (* pynitf/nitf_tre_rsmdca.py:49 *) RField (Build_fdesc (Some "ic0") (SzInt 2%Z) TInt FrNone DfNone None true 32%N false None 0%Z false);
  (* pynitf/nitf_tre_rsmdca.py:50 *) RField (Build_fdesc (Some "icx") (SzInt 2%Z) TInt FrNone DfNone None true 32%N false None 0%Z false);
  (* pynitf/nitf_tre_rsmdca.py:51 *) RField (Build_fdesc (Some "icy") (SzInt 2%Z) TInt FrNone DfNone None true 32%N false None 0%Z false);
  (* pynitf/nitf_tre_rsmdca.py:52 *) RField (Build_fdesc (Some "icz") (SzInt 2%Z) TInt FrNone DfNone None true 32%N false None 0%Z false);
  (* pynitf/nitf_tre_rsmdca.py:53 *) RField (Build_fdesc (Some "icxx") (SzInt 2%Z) TInt FrNone DfNone None true 32%N false None 0%Z false);
  (* pynitf/nitf_tre_rsmdca.py:54 *) RField (Build_fdesc (Some "icxy") (SzInt 2%Z) TInt FrNone DfNone None true 32%N false None 0%Z false);
  (* pynitf/nitf_tre_rsmdca.py:55 *) RField (Build_fdesc (Some "icxz") (SzInt 2%Z) TInt FrNone DfNone None true 32%N false None 0%Z false);
  (* pynitf/nitf_tre_rsmdca.py:56 *) RField (Build_fdesc (Some "icyy") (SzInt 2%Z) TInt FrNone DfNone None true 32%N false None 0%Z false);
  (* pynitf/nitf_tre_rsmdca.py:57 *) RField (Build_fdesc (Some "icyz") (SzInt 2%Z) TInt FrNone DfNone None true 32%N false None 0%Z false);
  (* pynitf/nitf_tre_rsmdca.py:58 *) RField (Build_fdesc (Some "iczz") (SzInt 2%Z) TInt FrNone DfNone None true 32%N false None 0%Z false);
  (* pynitf/nitf_tre_rsmdca.py:59 *) RField (Build_fdesc (Some "gx0") (SzInt 2%Z) TInt FrNone DfNone None true 32%N false None 0%Z false);
  (* pynitf/nitf_tre_rsmdca.py:60 *) RField (Build_fdesc (Some "gy0") (SzInt 2%Z) TInt FrNone DfNone None true 32%N false None 0%Z false);
  (* pynitf/nitf_tre_rsmdca.py:61 *) RField (Build_fdesc (Some "gz0") (SzInt 2%Z) TInt FrNone DfNone None true 32%N false None 0%Z false);
  (* pynitf/nitf_tre_rsmdca.py:62 *) RField (Build_fdesc (Some "gxr") (SzInt 2%Z) TInt FrNone DfNone None true 32%N false None 0%Z false);
  (* pynitf/nitf_tre_rsmdca.py:63 *) RField (Build_fdesc (Some "gyr") (SzInt 2%Z) TInt FrNone DfNone None true 32%N false None 0%Z false);
  (* pynitf/nitf_tre_rsmdca.py:64 *) RField (Build_fdesc (Some "gzr") (SzInt 2%Z) TInt FrNone DfNone None true 32%N false None 0%Z false);
  (* pynitf/nitf_tre_rsmdca.py:65 *) RField (Build_fdesc (Some "gs") (SzInt 2%Z) TInt FrNone DfNone None true 32%N false None 0%Z false);
  (* pynitf/nitf_tre_rsmdca.py:66 *) RField (Build_fdesc (Some "gxx") (SzInt 2%Z) TInt FrNone DfNone None true 32%N false None 0%Z false);
  (* pynitf/nitf_tre_rsmdca.py:67 *) RField (Build_fdesc (Some "gxy") (SzInt 2%Z) TInt FrNone DfNone None true 32%N false None 0%Z false);
  (* pynitf/nitf_tre_rsmdca.py:68 *) RField (Build_fdesc (Some "gxz") (SzInt 2%Z) TInt FrNone DfNone None true 32%N false None 0%Z false);
  (* pynitf/nitf_tre_rsmdca.py:69 *) RField (Build_fdesc (Some "gyx") (SzInt 2%Z) TInt FrNone DfNone None true 32%N false None 0%Z false);
  (* pynitf/nitf_tre_rsmdca.py:70 *) RField (Build_fdesc (Some "gyy") (SzInt 2%Z) TInt FrNone DfNone None true 32%N false None 0%Z false);
  (* pynitf/nitf_tre_rsmdca.py:71 *) RField (Build_fdesc (Some "gyz") (SzInt 2%Z) TInt FrNone DfNone None true 32%N false None 0%Z false);
  (* pynitf/nitf_tre_rsmdca.py:72 *) RField (Build_fdesc (Some "gzx") (SzInt 2%Z) TInt FrNone DfNone None true 32%N false None 0%Z false);
  (* pynitf/nitf_tre_rsmdca.py:73 *) RField (Build_fdesc (Some "gzy") (SzInt 2%Z) TInt FrNone DfNone None true 32%N false None 0%Z false);
  (* pynitf/nitf_tre_rsmdca.py:74 *) RField (Build_fdesc (Some "gzz") (SzInt 2%Z) TInt FrNone DfNone None true 32%N false None 0%Z false);
  (* pynitf/nitf_tre_rsmdca.py:75 *)
  RLoop (EFloorDiv (EMul (EAdd (EFld "npart" 0) (EInt 1%Z)) (EFld "npart" 0)) (EInt 2%Z)) [
    (* pynitf/nitf_tre_rsmdca.py:76 *) RField (Build_fdesc (Some "dercov") (SzInt 21%Z) TFloat (FrF (FsPct false false false 21 14 true true)) DfNone None false 32%N false None 0%Z false)]
].

(** pynitf/nitf_tre_rsmecb.py, class TreRSMECB (line 188), table at line 17. *)
Definition desc_TreRSMECB : list row := [
  (* pynitf/nitf_tre_rsmecb.py:17 *) RField (Build_fdesc (Some "iid") (SzInt 80%Z) TStr FrNone DfNone None true 32%N false None 0%Z false);
  (* pynitf/nitf_tre_rsmecb.py:18 *) RField (Build_fdesc (Some "edition") (SzInt 40%Z) TStr FrNone DfNone None false 32%N false None 0%Z false);
  (* pynitf/nitf_tre_rsmecb.py:19 *) RField (Build_fdesc (Some "tid") (SzInt 40%Z) TStr FrNone DfNone None true 32%N false None 0%Z false);
  (* pynitf/nitf_tre_rsmecb.py:20 *) RField (Build_fdesc (Some "inclic") (SzInt 1%Z) TStr FrNone DfNone None false 32%N false None 0%Z false);
  (* pynitf/nitf_tre_rsmecb.py:21 *) RField (Build_fdesc (Some "incluc") (SzInt 1%Z) TStr FrNone DfNone None false 32%N false None 0%Z false);
  (* pynitf/nitf_tre_rsmecb.py:22 *) RField (Build_fdesc (Some "nparo") (SzInt 2%Z) TInt FrNone DfNone (Some (ECmp CEq (EFld "inclic" 0) (EStr (str "Y")))) false 32%N false None 0%Z false);
  (* pynitf/nitf_tre_rsmecb.py:24 *) RField (Build_fdesc (Some "ign") (SzInt 2%Z) TInt FrNone DfNone (Some (ECmp CEq (EFld "inclic" 0) (EStr (str "Y")))) false 32%N false None 0%Z false);
  (* pynitf/nitf_tre_rsmecb.py:26 *) RField (Build_fdesc (Some "cvdate") (SzInt 8%Z) TStr FrNone DfNone (Some (ECmp CEq (EFld "inclic" 0) (EStr (str "Y")))) false 32%N false None 0%Z false);
  (* pynitf/nitf_tre_rsmecb.py:28 *) RField (Build_fdesc (Some "npar") (SzInt 2%Z) TInt FrNone DfNone (Some (ECmp CEq (EFld "inclic" 0) (EStr (str "Y")))) false 32%N false None 0%Z false);
  (* pynitf/nitf_tre_rsmecb.py:30 *) RField (Build_fdesc (Some "aptyp") (SzInt 1%Z) TStr FrNone DfNone (Some (ECmp CEq (EFld "inclic" 0) (EStr (str "Y")))) false 32%N false None 0%Z false);
  (* pynitf/nitf_tre_rsmecb.py:32 *) RField (Build_fdesc (Some "loctyp") (SzInt 1%Z) TStr FrNone DfNone (Some (ECmp CEq (EFld "inclic" 0) (EStr (str "Y")))) false 32%N false None 0%Z false);
  (* pynitf/nitf_tre_rsmecb.py:34 *) RField (Build_fdesc (Some "nsfx") (SzInt 21%Z) TFloat (FrF (FsPct false false false 21 14 true true)) DfNone (Some (ECmp CEq (EFld "inclic" 0) (EStr (str "Y")))) false 32%N false None 0%Z false);
  (* pynitf/nitf_tre_rsmecb.py:36 *) RField (Build_fdesc (Some "nsfy") (SzInt 21%Z) TFloat (FrF (FsPct false false false 21 14 true true)) DfNone (Some (ECmp CEq (EFld "inclic" 0) (EStr (str "Y")))) false 32%N false None 0%Z false);
  (* pynitf/nitf_tre_rsmecb.py:38 *) RField (Build_fdesc (Some "nsfz") (SzInt 21%Z) TFloat (FrF (FsPct false false false 21 14 true true)) DfNone (Some (ECmp CEq (EFld "inclic" 0) (EStr (str "Y")))) false 32%N false None 0%Z false);
  (* pynitf/nitf_tre_rsmecb.py:40 *) RField (Build_fdesc (Some "noffx") (SzInt 21%Z) TFloat (FrF (FsPct false false false 21 14 true true)) DfNone (Some (ECmp CEq (EFld "inclic" 0) (EStr (str "Y")))) false 32%N false None 0%Z false);
  (* pynitf/nitf_tre_rsmecb.py:42 *) RField (Build_fdesc (Some "noffy") (SzInt 21%Z) TFloat (FrF (FsPct false false false 21 14 true true)) DfNone (Some (ECmp CEq (EFld "inclic" 0) (EStr (str "Y")))) false 32%N false None 0%Z false);
  (* pynitf/nitf_tre_rsmecb.py:44 *) RField (Build_fdesc (Some "noffz") (SzInt 21%Z) TFloat (FrF (FsPct false false false 21 14 true true)) DfNone (Some (ECmp CEq (EFld "inclic" 0) (EStr (str "Y")))) false 32%N false None 0%Z false);
  (* pynitf/nitf_tre_rsmecb.py:46 *) RField (Build_fdesc (Some "xuol") (SzInt 21%Z) TFloat (FrF (FsPct false false false 21 14 true true)) DfNone (Some (EAnd (ECmp CEq (EFld "inclic" 0) (EStr (str "Y"))) (ECmp CEq (EFld "loctyp" 0) (EStr (str "R"))))) false 32%N false None 0%Z false);
  (* pynitf/nitf_tre_rsmecb.py:49 *) RField (Build_fdesc (Some "yuol") (SzInt 21%Z) TFloat (FrF (FsPct false false false 21 14 true true)) DfNone (Some (EAnd (ECmp CEq (EFld "inclic" 0) (EStr (str "Y"))) (ECmp CEq (EFld "loctyp" 0) (EStr (str "R"))))) false 32%N false None 0%Z false);
  (* pynitf/nitf_tre_rsmecb.py:52 *) RField (Build_fdesc (Some "zuol") (SzInt 21%Z) TFloat (FrF (FsPct false false false 21 14 true true)) DfNone (Some (EAnd (ECmp CEq (EFld "inclic" 0) (EStr (str "Y"))) (ECmp CEq (EFld "loctyp" 0) (EStr (str "R"))))) false 32%N false None 0%Z false);
  (* pynitf/nitf_tre_rsmecb.py:55 *) RField (Build_fdesc (Some "xuxl") (SzInt 21%Z) TFloat (FrF (FsPct false false false 21 14 true true)) DfNone (Some (EAnd (ECmp CEq (EFld "inclic" 0) (EStr (str "Y"))) (ECmp CEq (EFld "loctyp" 0) (EStr (str "R"))))) false 32%N false None 0%Z false);
  (* pynitf/nitf_tre_rsmecb.py:58 *) RField (Build_fdesc (Some "xuyl") (SzInt 21%Z) TFloat (FrF (FsPct false false false 21 14 true true)) DfNone (Some (EAnd (ECmp CEq (EFld "inclic" 0) (EStr (str "Y"))) (ECmp CEq (EFld "loctyp" 0) (EStr (str "R"))))) false 32%N false None 0%Z false);
  (* pynitf/nitf_tre_rsmecb.py:61 *) RField (Build_fdesc (Some "xuzl") (SzInt 21%Z) TFloat (FrF (FsPct false false false 21 14 true true)) DfNone (Some (EAnd (ECmp CEq (EFld "inclic" 0) (EStr (str "Y"))) (ECmp CEq (EFld "loctyp" 0) (EStr (str "R"))))) false 32%N false None 0%Z false);
  (* pynitf/nitf_tre_rsmecb.py:64 *) RField (Build_fdesc (Some "yuxl") (SzInt 21%Z) TFloat (FrF (FsPct false false false 21 14 true true)) DfNone (Some (EAnd (ECmp CEq (EFld "inclic" 0) (EStr (str "Y"))) (ECmp CEq (EFld "loctyp" 0) (EStr (str "R"))))) false 32%N false None 0%Z false);
  (* pynitf/nitf_tre_rsmecb.py:67 *) RField (Build_fdesc (Some "yuyl") (SzInt 21%Z) TFloat (FrF (FsPct false false false 21 14 true true)) DfNone (Some (EAnd (ECmp CEq (EFld "inclic" 0) (EStr (str "Y"))) (ECmp CEq (EFld "loctyp" 0) (EStr (str "R"))))) false 32%N false None 0%Z false);
  (* pynitf/nitf_tre_rsmecb.py:70 *) RField (Build_fdesc (Some "yuzl") (SzInt 21%Z) TFloat (FrF (FsPct false false false 21 14 true true)) DfNone (Some (EAnd (ECmp CEq (EFld "inclic" 0) (EStr (str "Y"))) (ECmp CEq (EFld "loctyp" 0) (EStr (str "R"))))) false 32%N false None 0%Z false);
  (* pynitf/nitf_tre_rsmecb.py:73 *) RField (Build_fdesc (Some "zuxl") (SzInt 21%Z) TFloat (FrF (FsPct false false false 21 14 true true)) DfNone (Some (EAnd (ECmp CEq (EFld "inclic" 0) (EStr (str "Y"))) (ECmp CEq (EFld "loctyp" 0) (EStr (str "R"))))) false 32%N false None 0%Z false);
  (* pynitf/nitf_tre_rsmecb.py:76 *) RField (Build_fdesc (Some "zuyl") (SzInt 21%Z) TFloat (FrF (FsPct false false false 21 14 true true)) DfNone (Some (EAnd (ECmp CEq (EFld "inclic" 0) (EStr (str "Y"))) (ECmp CEq (EFld "loctyp" 0) (EStr (str "R"))))) false 32%N false None 0%Z false);
  (* pynitf/nitf_tre_rsmecb.py:79 *) RField (Build_fdesc (Some "zuzl") (SzInt 21%Z) TFloat (FrF (FsPct false false false 21 14 true true)) DfNone (Some (EAnd (ECmp CEq (EFld "inclic" 0) (EStr (str "Y"))) (ECmp CEq (EFld "loctyp" 0) (EStr (str "R"))))) false 32%N false None 0%Z false);
  (* pynitf/nitf_tre_rsmecb.py:82 *) RField (Build_fdesc (Some "apbase") (SzInt 1%Z) TStr FrNone DfNone (Some (ECmp CEq (EFld "inclic" 0) (EStr (str "Y")))) false 32%N false None 0%Z false);
  (* pynitf/nitf_tre_rsmecb.py:83 *) RField (Build_fdesc (Some "nisap") (SzInt 2%Z) TInt FrNone DfNone (Some (EAnd (ECmp CEq (EFld "inclic" 0) (EStr (str "Y"))) (ECmp CEq (EFld "aptyp" 0) (EStr (str "I"))))) false 32%N false None 0%Z false);
  (* pynitf/nitf_tre_rsmecb.py:85 *) RField (Build_fdesc (Some "nisapr") (SzInt 2%Z) TInt FrNone DfNone (Some (EAnd (ECmp CEq (EFld "inclic" 0) (EStr (str "Y"))) (ECmp CEq (EFld "aptyp" 0) (EStr (str "I"))))) false 32%N false None 0%Z false);
  (* pynitf/nitf_tre_rsmecb.py:87 *)
  RLoop (EFld "nisapr" 0) [
    (* pynitf/nitf_tre_rsmecb.py:88 *) RField (Build_fdesc (Some "xpwrr") (SzInt 1%Z) TInt FrNone DfNone None false 32%N false None 0%Z false);
    (* pynitf/nitf_tre_rsmecb.py:89 *) RField (Build_fdesc (Some "ypwrr") (SzInt 1%Z) TInt FrNone DfNone None false 32%N false None 0%Z false);
    (* pynitf/nitf_tre_rsmecb.py:90 *) RField (Build_fdesc (Some "zpwrr") (SzInt 1%Z) TInt FrNone DfNone None false 32%N false None 0%Z false)];
  (* pynitf/nitf_tre_rsmecb.py:92 *) RField (Build_fdesc (Some "nisapc") (SzInt 2%Z) TInt FrNone DfNone (Some (EAnd (ECmp CEq (EFld "inclic" 0) (EStr (str "Y"))) (ECmp CEq (EFld "aptyp" 0) (EStr (str "I"))))) false 32%N false None 0%Z false);
  (* pynitf/nitf_tre_rsmecb.py:94 *)
  RLoop (EFld "nisapc" 0) [
    (* pynitf/nitf_tre_rsmecb.py:95 *) RField (Build_fdesc (Some "xpwrc") (SzInt 1%Z) TInt FrNone DfNone None false 32%N false None 0%Z false);
    (* pynitf/nitf_tre_rsmecb.py:96 *) RField (Build_fdesc (Some "ypwrc") (SzInt 1%Z) TInt FrNone DfNone None false 32%N false None 0%Z false);
    (* pynitf/nitf_tre_rsmecb.py:97 *) RField (Build_fdesc (Some "zpwrc") (SzInt 1%Z) TInt FrNone DfNone None false 32%N false None 0%Z false)];
  (* pynitf/nitf_tre_rsmecb.py:99 *) RField (Build_fdesc (Some "ngsap") (SzInt 2%Z) TInt FrNone DfNone (Some (EAnd (ECmp CEq (EFld "inclic" 0) (EStr (str "Y"))) (ECmp CEq (EFld "aptyp" 0) (EStr (str "G"))))) false 32%N false None 0%Z false);
  (* pynitf/nitf_tre_rsmecb.py:101 *)
  RLoop (EFld "ngsap" 0) [
    (* pynitf/nitf_tre_rsmecb.py:102 *) RField (Build_fdesc (Some "gsapid") (SzInt 4%Z) TStr FrNone DfNone None false 32%N false None 0%Z false)];
  (* pynitf/nitf_tre_rsmecb.py:104 *) RField (Build_fdesc (Some "nbasis") (SzInt 2%Z) TInt FrNone DfNone (Some (EAnd (ECmp CEq (EFld "inclic" 0) (EStr (str "Y"))) (ECmp CEq (EFld "apbase" 0) (EStr (str "Y"))))) false 32%N false None 0%Z false);
  (* pynitf/nitf_tre_rsmecb.py:106 *)
  RLoop (EFld "npar" 0) [
    (* pynitf/nitf_tre_rsmecb.py:107 *)
    RLoop (EFld "nbasis" 0) [
      (* pynitf/nitf_tre_rsmecb.py:108 *) RField (Build_fdesc (Some "ael") (SzInt 21%Z) TFloat (FrF (FsPct false false false 21 14 true true)) DfNone None false 32%N false None 0%Z false)]];
  (* pynitf/nitf_tre_rsmecb.py:112 *)
  RLoop (EFld "ign" 0) [
    (* pynitf/nitf_tre_rsmecb.py:113 *) RField (Build_fdesc (Some "numopg") (SzInt 2%Z) TInt FrNone DfNone None false 32%N false None 0%Z false);
    (* pynitf/nitf_tre_rsmecb.py:115 *)
    RLoop (EFloorDiv (EMul (EAdd (EFld "numopg" 1) (EInt 1%Z)) (EFld "numopg" 1)) (EInt 2%Z)) [
      (* pynitf/nitf_tre_rsmecb.py:116 *) RField (Build_fdesc (Some "errcvg") (SzInt 21%Z) TFloat (FrF (FsPct false false false 21 14 true true)) DfNone None false 32%N false None 0%Z false)];
    (* pynitf/nitf_tre_rsmecb.py:119 *) RField (Build_fdesc (Some "tcdf") (SzInt 1%Z) TInt FrNone DfNone None false 32%N false None 0%Z false);
    (* pynitf/nitf_tre_rsmecb.py:120 *) RField (Build_fdesc (Some "acsmc") (SzInt 1%Z) TStr FrNone DfNone None false 32%N false None 0%Z false);
    (* pynitf/nitf_tre_rsmecb.py:121 *) RField (Build_fdesc (Some "ncseg") (SzInt 1%Z) TInt FrNone DfNone (Some (ECmp CEq (EFld "acsmc" 1) (EStr (str "N")))) false 32%N false None 0%Z false);
    (* pynitf/nitf_tre_rsmecb.py:123 *)
    RLoop (EFld "ncseg" 1) [
      (* pynitf/nitf_tre_rsmecb.py:124 *) RField (Build_fdesc (Some "corseg") (SzInt 21%Z) TFloat (FrF (FsPct false false false 21 14 true true)) DfNone None false 32%N false None 0%Z false);
      (* pynitf/nitf_tre_rsmecb.py:126 *) RField (Build_fdesc (Some "tauseg") (SzInt 21%Z) TFloat (FrF (FsPct false false false 21 14 true true)) DfNone None false 32%N false None 0%Z false)];
    (* pynitf/nitf_tre_rsmecb.py:129 *) RField (Build_fdesc (Some "ac") (SzInt 21%Z) TFloat (FrF (FsPct false false false 21 14 true true)) DfNone (Some (EAnd (ECmp CEq (EFld "inclic" 0) (EStr (str "Y"))) (ECmp CEq (EFld "acsmc" 1) (EStr (str "Y"))))) false 32%N false None 0%Z false);
    (* pynitf/nitf_tre_rsmecb.py:132 *) RField (Build_fdesc (Some "alpc") (SzInt 21%Z) TFloat (FrF (FsPct false false false 21 14 true true)) DfNone (Some (EAnd (ECmp CEq (EFld "inclic" 0) (EStr (str "Y"))) (ECmp CEq (EFld "acsmc" 1) (EStr (str "Y"))))) false 32%N false None 0%Z false);
    (* pynitf/nitf_tre_rsmecb.py:135 *) RField (Build_fdesc (Some "betc") (SzInt 21%Z) TFloat (FrF (FsPct false false false 21 14 true true)) DfNone (Some (EAnd (ECmp CEq (EFld "inclic" 0) (EStr (str "Y"))) (ECmp CEq (EFld "acsmc" 1) (EStr (str "Y"))))) false 32%N false None 0%Z false);
    (* pynitf/nitf_tre_rsmecb.py:138 *) RField (Build_fdesc (Some "tc") (SzInt 21%Z) TFloat (FrF (FsPct false false false 21 14 true true)) DfNone (Some (EAnd (ECmp CEq (EFld "inclic" 0) (EStr (str "Y"))) (ECmp CEq (EFld "acsmc" 1) (EStr (str "Y"))))) false 32%N false None 0%Z false)];
  (* pynitf/nitf_tre_rsmecb.py:142 *)
  RLoop (EFld "npar" 0) [
    (* pynitf/nitf_tre_rsmecb.py:143 *)
    RLoop (EFld "nparo" 0) [
      (* pynitf/nitf_tre_rsmecb.py:144 *) RField (Build_fdesc (Some "map") (SzInt 21%Z) TFloat (FrF (FsPct false false false 21 14 true true)) DfNone None false 32%N false None 0%Z false)]];
  (* pynitf/nitf_tre_rsmecb.py:148 *) RField (Build_fdesc (Some "urr") (SzInt 21%Z) TFloat (FrF (FsPct false false false 21 14 true true)) DfNone (Some (ECmp CEq (EFld "incluc" 0) (EStr (str "Y")))) false 32%N false None 0%Z false);
  (* pynitf/nitf_tre_rsmecb.py:150 *) RField (Build_fdesc (Some "urc") (SzInt 21%Z) TFloat (FrF (FsPct false false false 21 14 true true)) DfNone (Some (ECmp CEq (EFld "incluc" 0) (EStr (str "Y")))) false 32%N false None 0%Z false);
  (* pynitf/nitf_tre_rsmecb.py:152 *) RField (Build_fdesc (Some "ucc") (SzInt 21%Z) TFloat (FrF (FsPct false false false 21 14 true true)) DfNone (Some (ECmp CEq (EFld "incluc" 0) (EStr (str "Y")))) false 32%N false None 0%Z false);
  (* pynitf/nitf_tre_rsmecb.py:154 *) RField (Build_fdesc (Some "uacsmc") (SzInt 1%Z) TStr FrNone DfNone (Some (ECmp CEq (EFld "incluc" 0) (EStr (str "Y")))) false 32%N false None 0%Z false);
  (* pynitf/nitf_tre_rsmecb.py:156 *) RField (Build_fdesc (Some "uncsr") (SzInt 1%Z) TInt FrNone DfNone (Some (EAnd (ECmp CEq (EFld "incluc" 0) (EStr (str "Y"))) (ECmp CEq (EFld "uacsmc" 0) (EStr (str "N"))))) false 32%N false None 0%Z false);
  (* pynitf/nitf_tre_rsmecb.py:158 *)
  RLoop (EFld "uncsr" 0) [
    (* pynitf/nitf_tre_rsmecb.py:159 *) RField (Build_fdesc (Some "ucorsr") (SzInt 21%Z) TFloat (FrF (FsPct false false false 21 14 true true)) DfNone None false 32%N false None 0%Z false);
    (* pynitf/nitf_tre_rsmecb.py:161 *) RField (Build_fdesc (Some "utausr") (SzInt 21%Z) TFloat (FrF (FsPct false false false 21 14 true true)) DfNone None false 32%N false None 0%Z false)];
  (* pynitf/nitf_tre_rsmecb.py:163 *) RField (Build_fdesc (Some "uncsc") (SzInt 1%Z) TInt FrNone DfNone (Some (EAnd (ECmp CEq (EFld "incluc" 0) (EStr (str "Y"))) (ECmp CEq (EFld "uacsmc" 0) (EStr (str "N"))))) false 32%N false None 0%Z false);
  (* pynitf/nitf_tre_rsmecb.py:165 *)
  RLoop (EFld "uncsc" 0) [
    (* pynitf/nitf_tre_rsmecb.py:166 *) RField (Build_fdesc (Some "ucorsc") (SzInt 21%Z) TFloat (FrF (FsPct false false false 21 14 true true)) DfNone None false 32%N false None 0%Z false);
    (* pynitf/nitf_tre_rsmecb.py:168 *) RField (Build_fdesc (Some "utausc") (SzInt 21%Z) TFloat (FrF (FsPct false false false 21 14 true true)) DfNone None false 32%N false None 0%Z false)];
  (* pynitf/nitf_tre_rsmecb.py:170 *) RField (Build_fdesc (Some "uacr") (SzInt 21%Z) TFloat (FrF (FsPct false false false 21 14 true true)) DfNone (Some (EAnd (ECmp CEq (EFld "incluc" 0) (EStr (str "Y"))) (ECmp CEq (EFld "uacsmc" 0) (EStr (str "Y"))))) false 32%N false None 0%Z false);
  (* pynitf/nitf_tre_rsmecb.py:172 *) RField (Build_fdesc (Some "ualpcr") (SzInt 21%Z) TFloat (FrF (FsPct false false false 21 14 true true)) DfNone (Some (EAnd (ECmp CEq (EFld "incluc" 0) (EStr (str "Y"))) (ECmp CEq (EFld "uacsmc" 0) (EStr (str "Y"))))) false 32%N false None 0%Z false);
  (* pynitf/nitf_tre_rsmecb.py:174 *) RField (Build_fdesc (Some "ubetcr") (SzInt 21%Z) TFloat (FrF (FsPct false false false 21 14 true true)) DfNone (Some (EAnd (ECmp CEq (EFld "incluc" 0) (EStr (str "Y"))) (ECmp CEq (EFld "uacsmc" 0) (EStr (str "Y"))))) false 32%N false None 0%Z false);
  (* pynitf/nitf_tre_rsmecb.py:176 *) RField (Build_fdesc (Some "utcr") (SzInt 21%Z) TFloat (FrF (FsPct false false false 21 14 true true)) DfNone (Some (EAnd (ECmp CEq (EFld "incluc" 0) (EStr (str "Y"))) (ECmp CEq (EFld "uacsmc" 0) (EStr (str "Y"))))) false 32%N false None 0%Z false);
  (* pynitf/nitf_tre_rsmecb.py:178 *) RField (Build_fdesc (Some "uacc") (SzInt 21%Z) TFloat (FrF (FsPct false false false 21 14 true true)) DfNone (Some (EAnd (ECmp CEq (EFld "incluc" 0) (EStr (str "Y"))) (ECmp CEq (EFld "uacsmc" 0) (EStr (str "Y"))))) false 32%N false None 0%Z false);
  (* pynitf/nitf_tre_rsmecb.py:180 *) RField (Build_fdesc (Some "ualpcc") (SzInt 21%Z) TFloat (FrF (FsPct false false false 21 14 true true)) DfNone (Some (EAnd (ECmp CEq (EFld "incluc" 0) (EStr (str "Y"))) (ECmp CEq (EFld "uacsmc" 0) (EStr (str "Y"))))) false 32%N false None 0%Z false);
  (* pynitf/nitf_tre_rsmecb.py:182 *) RField (Build_fdesc (Some "ubetcc") (SzInt 21%Z) TFloat (FrF (FsPct false false false 21 14 true true)) DfNone (Some (EAnd (ECmp CEq (EFld "incluc" 0) (EStr (str "Y"))) (ECmp CEq (EFld "uacsmc" 0) (EStr (str "Y"))))) false 32%N false None 0%Z false);
  (* pynitf/nitf_tre_rsmecb.py:184 *) RField (Build_fdesc (Some "utcc") (SzInt 21%Z) TFloat (FrF (FsPct false false false 21 14 true true)) DfNone (Some (EAnd (ECmp CEq (EFld "incluc" 0) (EStr (str "Y"))) (ECmp CEq (EFld "uacsmc" 0) (EStr (str "Y"))))) false 32%N false None 0%Z false)
].

(** pynitf/nitf_tre_rsmgga.py, class TreRSMGGA (line 66), table at line 32. *)
Definition desc_TreRSMGGA : list row := [
  (* pynitf/nitf_tre_rsmgga.py:32 *) RField (Build_fdesc (Some "iid") (SzInt 80%Z) TStr FrNone DfNone None true 32%N false None 0%Z false);
  (* pynitf/nitf_tre_rsmgga.py:33 *) RField (Build_fdesc (Some "edition") (SzInt 40%Z) TStr FrNone DfNone None false 32%N false None 0%Z false);
  (* pynitf/nitf_tre_rsmgga.py:34 *) RField (Build_fdesc (Some "ggrsn") (SzInt 3%Z) TInt FrNone DfNone None false 32%N false None 0%Z false);
  (* pynitf/nitf_tre_rsmgga.py:35 *) RField (Build_fdesc (Some "ggcsn") (SzInt 3%Z) TInt FrNone DfNone None false 32%N false None 0%Z false);
  (* pynitf/nitf_tre_rsmgga.py:36 *) RField (Build_fdesc (Some "ggrfep") (SzInt 21%Z) TFloat (FrF (FsPct true false false 21 14 true true)) DfNone None true 32%N false None 0%Z false);
  (* pynitf/nitf_tre_rsmgga.py:37 *) RField (Build_fdesc (Some "ggcfep") (SzInt 21%Z) TFloat (FrF (FsPct true false false 21 14 true true)) DfNone None true 32%N false None 0%Z false);
  (* pynitf/nitf_tre_rsmgga.py:38 *) RField (Build_fdesc (Some "intord") (SzInt 1%Z) TInt FrNone DfNone None true 32%N false None 0%Z false);
  (* pynitf/nitf_tre_rsmgga.py:39 *) RField (Build_fdesc (Some "npln") (SzInt 3%Z) TInt FrNone DfNone None false 32%N false None 0%Z false);
  (* pynitf/nitf_tre_rsmgga.py:40 *) RField (Build_fdesc (Some "deltaz") (SzInt 21%Z) TFloat (FrF (FsPct true false false 21 14 true true)) DfNone None false 32%N false None 0%Z false);
  (* pynitf/nitf_tre_rsmgga.py:41 *) RField (Build_fdesc (Some "deltax") (SzInt 21%Z) TFloat (FrF (FsPct true false false 21 14 true true)) DfNone None false 32%N false None 0%Z false);
  (* pynitf/nitf_tre_rsmgga.py:42 *) RField (Build_fdesc (Some "deltay") (SzInt 21%Z) TFloat (FrF (FsPct true false false 21 14 true true)) DfNone None false 32%N false None 0%Z false);
  (* pynitf/nitf_tre_rsmgga.py:43 *) RField (Build_fdesc (Some "zpln1") (SzInt 21%Z) TFloat (FrF (FsPct true false false 21 14 true true)) DfNone None false 32%N false None 0%Z false);
  (* pynitf/nitf_tre_rsmgga.py:44 *) RField (Build_fdesc (Some "xipln1") (SzInt 21%Z) TFloat (FrF (FsPct true false false 21 14 true true)) DfNone None false 32%N false None 0%Z false);
  (* pynitf/nitf_tre_rsmgga.py:45 *) RField (Build_fdesc (Some "yipln1") (SzInt 21%Z) TFloat (FrF (FsPct true false false 21 14 true true)) DfNone None false 32%N false None 0%Z false);
  (* pynitf/nitf_tre_rsmgga.py:46 *) RField (Build_fdesc (Some "refrow") (SzInt 9%Z) TInt FrNone DfNone None false 32%N false None 0%Z false);
  (* pynitf/nitf_tre_rsmgga.py:47 *) RField (Build_fdesc (Some "refcol") (SzInt 9%Z) TInt FrNone DfNone None false 32%N false None 0%Z false);
  (* pynitf/nitf_tre_rsmgga.py:48 *) RField (Build_fdesc (Some "tnumrd") (SzInt 2%Z) TInt FrNone DfNone None false 32%N false None 0%Z false);
  (* pynitf/nitf_tre_rsmgga.py:49 *) RField (Build_fdesc (Some "tnumcd") (SzInt 2%Z) TInt FrNone DfNone None false 32%N false None 0%Z false);
  (* pynitf/nitf_tre_rsmgga.py:50 *) RField (Build_fdesc (Some "fnumrd") (SzInt 1%Z) TInt FrNone DfNone None false 32%N false None 0%Z false);
  (* pynitf/nitf_tre_rsmgga.py:51 *) RField (Build_fdesc (Some "fnumcd") (SzInt 1%Z) TInt FrNone DfNone None false 32%N false None 0%Z false);
  (* pynitf/nitf_tre_rsmgga.py:52 *)
  RLoop (ESub (EFld "npln" 0) (EInt 1%Z)) [
    (* pynitf/nitf_tre_rsmgga.py:53 *) RField (Build_fdesc (Some "ixo") (SzInt 4%Z) TInt FrNone DfNone None false 32%N false None 0%Z false);
    (* pynitf/nitf_tre_rsmgga.py:54 *) RField (Build_fdesc (Some "iyo") (SzInt 4%Z) TInt FrNone DfNone None false 32%N false None 0%Z false)];
  (* pynitf/nitf_tre_rsmgga.py:56 *)
  RLoop (EFld "npln" 0) [
    (* pynitf/nitf_tre_rsmgga.py:57 *) RField (Build_fdesc (Some "nxpts") (SzInt 3%Z) TInt FrNone DfNone None false 32%N false None 0%Z false);
    (* pynitf/nitf_tre_rsmgga.py:58 *) RField (Build_fdesc (Some "nypts") (SzInt 3%Z) TInt FrNone DfNone None false 32%N false None 0%Z false);
    (* pynitf/nitf_tre_rsmgga.py:59 *)
    RLoop (EMul (EFld "nxpts" 1) (EFld "nypts" 1)) [
      (* pynitf/nitf_tre_rsmgga.py:60 *) RField (Build_fdesc (Some "rcoord") (SzExpr (EFld "tnumrd" 0)) (TData KExt) FrNone DfNone None false 32%N false None 0%Z false);
      (* pynitf/nitf_tre_rsmgga.py:61 *) RField (Build_fdesc (Some "ccoord") (SzExpr (EFld "tnumcd" 0)) (TData KExt) FrNone DfNone None false 32%N false None 0%Z false)]]
].

(** pynitf/nitf_tre_rsmgia.py, class TreRSMGIA (line 49), table at line 20. *)
Definition desc_TreRSMGIA : list row := [
  (* pynitf/nitf_tre_rsmgia.py:20 *) RField (Build_fdesc (Some "iid") (SzInt 80%Z) TStr FrNone DfNone None true 32%N false None 0%Z false);
  (* pynitf/nitf_tre_rsmgia.py:21 *) RField (Build_fdesc (Some "edition") (SzInt 40%Z) TStr FrNone DfNone None false 32%N false None 0%Z false);
  (* pynitf/nitf_tre_rsmgia.py:22 *) RField (Build_fdesc (Some "gr0") (SzInt 21%Z) TFloat (FrF (FsPct true false false 21 14 true true)) DfNone None false 32%N false None 0%Z false);
  (* pynitf/nitf_tre_rsmgia.py:23 *) RField (Build_fdesc (Some "grx") (SzInt 21%Z) TFloat (FrF (FsPct true false false 21 14 true true)) DfNone None false 32%N false None 0%Z false);
  (* pynitf/nitf_tre_rsmgia.py:24 *) RField (Build_fdesc (Some "gry") (SzInt 21%Z) TFloat (FrF (FsPct true false false 21 14 true true)) DfNone None false 32%N false None 0%Z false);
  (* pynitf/nitf_tre_rsmgia.py:25 *) RField (Build_fdesc (Some "grz") (SzInt 21%Z) TFloat (FrF (FsPct true false false 21 14 true true)) DfNone None false 32%N false None 0%Z false);
  (* pynitf/nitf_tre_rsmgia.py:26 *) RField (Build_fdesc (Some "grxx") (SzInt 21%Z) TFloat (FrF (FsPct true false false 21 14 true true)) DfNone None false 32%N false None 0%Z false);
  (* pynitf/nitf_tre_rsmgia.py:27 *) RField (Build_fdesc (Some "grxy") (SzInt 21%Z) TFloat (FrF (FsPct true false false 21 14 true true)) DfNone None false 32%N false None 0%Z false);
  (* pynitf/nitf_tre_rsmgia.py:28 *) RField (Build_fdesc (Some "grxz") (SzInt 21%Z) TFloat (FrF (FsPct true false false 21 14 true true)) DfNone None false 32%N false None 0%Z false);
  (* pynitf/nitf_tre_rsmgia.py:29 *) RField (Build_fdesc (Some "gryy") (SzInt 21%Z) TFloat (FrF (FsPct true false false 21 14 true true)) DfNone None false 32%N false None 0%Z false);
  (* pynitf/nitf_tre_rsmgia.py:30 *) RField (Build_fdesc (Some "gryz") (SzInt 21%Z) TFloat (FrF (FsPct true false false 21 14 true true)) DfNone None false 32%N false None 0%Z false);
  (* pynitf/nitf_tre_rsmgia.py:31 *) RField (Build_fdesc (Some "grzz") (SzInt 21%Z) TFloat (FrF (FsPct true false false 21 14 true true)) DfNone None false 32%N false None 0%Z false);
  (* pynitf/nitf_tre_rsmgia.py:32 *) RField (Build_fdesc (Some "gc0") (SzInt 21%Z) TFloat (FrF (FsPct true false false 21 14 true true)) DfNone None false 32%N false None 0%Z false);
  (* pynitf/nitf_tre_rsmgia.py:33 *) RField (Build_fdesc (Some "gcx") (SzInt 21%Z) TFloat (FrF (FsPct true false false 21 14 true true)) DfNone None false 32%N false None 0%Z false);
  (* pynitf/nitf_tre_rsmgia.py:34 *) RField (Build_fdesc (Some "gcy") (SzInt 21%Z) TFloat (FrF (FsPct true false false 21 14 true true)) DfNone None false 32%N false None 0%Z false);
  (* pynitf/nitf_tre_rsmgia.py:35 *) RField (Build_fdesc (Some "gcz") (SzInt 21%Z) TFloat (FrF (FsPct true false false 21 14 true true)) DfNone None false 32%N false None 0%Z false);
  (* pynitf/nitf_tre_rsmgia.py:36 *) RField (Build_fdesc (Some "gcxx") (SzInt 21%Z) TFloat (FrF (FsPct true false false 21 14 true true)) DfNone None false 32%N false None 0%Z false);
  (* pynitf/nitf_tre_rsmgia.py:37 *) RField (Build_fdesc (Some "gcxy") (SzInt 21%Z) TFloat (FrF (FsPct true false false 21 14 true true)) DfNone None false 32%N false None 0%Z false);
  (* pynitf/nitf_tre_rsmgia.py:38 *) RField (Build_fdesc (Some "gcxz") (SzInt 21%Z) TFloat (FrF (FsPct true false false 21 14 true true)) DfNone None false 32%N false None 0%Z false);
  (* pynitf/nitf_tre_rsmgia.py:39 *) RField (Build_fdesc (Some "gcyy") (SzInt 21%Z) TFloat (FrF (FsPct true false false 21 14 true true)) DfNone None false 32%N false None 0%Z false);
  (* pynitf/nitf_tre_rsmgia.py:40 *) RField (Build_fdesc (Some "gcyz") (SzInt 21%Z) TFloat (FrF (FsPct true false false 21 14 true true)) DfNone None false 32%N false None 0%Z false);
  (* pynitf/nitf_tre_rsmgia.py:41 *) RField (Build_fdesc (Some "gczz") (SzInt 21%Z) TFloat (FrF (FsPct true false false 21 14 true true)) DfNone None false 32%N false None 0%Z false);
  (* pynitf/nitf_tre_rsmgia.py:42 *) RField (Build_fdesc (Some "grnis") (SzInt 3%Z) TInt FrNone DfNone None false 32%N false None 0%Z false);
  (* pynitf/nitf_tre_rsmgia.py:43 *) RField (Build_fdesc (Some "gcnis") (SzInt 3%Z) TInt FrNone DfNone None false 32%N false None 0%Z false);
  (* pynitf/nitf_tre_rsmgia.py:44 *) RField (Build_fdesc (Some "gtnis") (SzInt 3%Z) TInt FrNone DfNone None false 32%N false None 0%Z false);
  (* pynitf/nitf_tre_rsmgia.py:45 *) RField (Build_fdesc (Some "grssiz") (SzInt 21%Z) TFloat (FrF (FsPct true false false 21 14 true true)) DfNone None false 32%N false None 0%Z false);
  (* pynitf/nitf_tre_rsmgia.py:46 *) RField (Build_fdesc (Some "gcssiz") (SzInt 21%Z) TFloat (FrF (FsPct true false false 21 14 true true)) DfNone None false 32%N false None 0%Z false)
].

(** pynitf/nitf_tre_rsmida.py, class TreRSMIDA (line 104), table at line 20. *)
Definition desc_TreRSMIDA : list row := [
  (* pynitf/nitf_tre_rsmida.py:20 *) RField (Build_fdesc (Some "iid") (SzInt 80%Z) TStr FrNone DfNone None false 32%N false None 0%Z false);
  (* pynitf/nitf_tre_rsmida.py:21 *) RField (Build_fdesc (Some "edition") (SzInt 40%Z) TStr FrNone DfNone None false 32%N false None 0%Z false);
  (* pynitf/nitf_tre_rsmida.py:22 *) RField (Build_fdesc (Some "isid") (SzInt 40%Z) TStr FrNone DfNone None false 32%N false None 0%Z false);
  (* pynitf/nitf_tre_rsmida.py:23 *) RField (Build_fdesc (Some "sid") (SzInt 40%Z) TStr FrNone DfNone None false 32%N false None 0%Z false);
  (* pynitf/nitf_tre_rsmida.py:24 *) RField (Build_fdesc (Some "stid") (SzInt 40%Z) TStr FrNone DfNone None false 32%N false None 0%Z false);
  (* pynitf/nitf_tre_rsmida.py:25 *) RField (Build_fdesc (Some "year") (SzInt 4%Z) TInt FrNone DfNone None true 32%N false None 0%Z false);
  (* pynitf/nitf_tre_rsmida.py:26 *) RField (Build_fdesc (Some "month") (SzInt 2%Z) TInt FrNone DfNone None true 32%N false None 0%Z false);
  (* pynitf/nitf_tre_rsmida.py:27 *) RField (Build_fdesc (Some "day") (SzInt 2%Z) TInt FrNone DfNone None true 32%N false None 0%Z false);
  (* pynitf/nitf_tre_rsmida.py:28 *) RField (Build_fdesc (Some "hour") (SzInt 2%Z) TInt FrNone DfNone None true 32%N false None 0%Z false);
  (* pynitf/nitf_tre_rsmida.py:29 *) RField (Build_fdesc (Some "minute") (SzInt 2%Z) TInt FrNone DfNone None true 32%N false None 0%Z false);
  (* pynitf/nitf_tre_rsmida.py:30 *) RField (Build_fdesc (Some "second") (SzInt 9%Z) TFloat (FrF (FsPct false true false 9 6 false false)) DfNone None true 32%N false None 0%Z false);
  (* pynitf/nitf_tre_rsmida.py:31 *) RField (Build_fdesc (Some "nrg") (SzInt 8%Z) TInt FrNone DfNone None true 32%N false None 0%Z false);
  (* pynitf/nitf_tre_rsmida.py:32 *) RField (Build_fdesc (Some "ncg") (SzInt 8%Z) TInt FrNone DfNone None true 32%N false None 0%Z false);
  (* pynitf/nitf_tre_rsmida.py:33 *) RField (Build_fdesc (Some "trg") (SzInt 21%Z) TFloat (FrF (FsPct true false false 21 14 true true)) DfNone None true 32%N false None 0%Z false);
  (* pynitf/nitf_tre_rsmida.py:34 *) RField (Build_fdesc (Some "tcg") (SzInt 21%Z) TFloat (FrF (FsPct true false false 21 14 true true)) DfNone None true 32%N false None 0%Z false);
  (* pynitf/nitf_tre_rsmida.py:35 *) RField (Build_fdesc (Some "grndd") (SzInt 1%Z) TStr FrNone DfNone None false 32%N false None 0%Z false);
  (* pynitf/nitf_tre_rsmida.py:36 *) RField (Build_fdesc (Some "xuor") (SzInt 21%Z) TFloat (FrF (FsPct true false false 21 14 true true)) DfNone None true 32%N false None 0%Z false);
  (* pynitf/nitf_tre_rsmida.py:37 *) RField (Build_fdesc (Some "yuor") (SzInt 21%Z) TFloat (FrF (FsPct true false false 21 14 true true)) DfNone None true 32%N false None 0%Z false);
  (* pynitf/nitf_tre_rsmida.py:38 *) RField (Build_fdesc (Some "zuor") (SzInt 21%Z) TFloat (FrF (FsPct true false false 21 14 true true)) DfNone None true 32%N false None 0%Z false);
  (* pynitf/nitf_tre_rsmida.py:39 *) RField (Build_fdesc (Some "xuxr") (SzInt 21%Z) TFloat (FrF (FsPct true false false 21 14 true true)) DfNone None true 32%N false None 0%Z false);
  (* pynitf/nitf_tre_rsmida.py:40 *) RField (Build_fdesc (Some "xuyr") (SzInt 21%Z) TFloat (FrF (FsPct true false false 21 14 true true)) DfNone None true 32%N false None 0%Z false);
  (* pynitf/nitf_tre_rsmida.py:41 *) RField (Build_fdesc (Some "xuzr") (SzInt 21%Z) TFloat (FrF (FsPct true false false 21 14 true true)) DfNone None true 32%N false None 0%Z false);
  (* pynitf/nitf_tre_rsmida.py:42 *) RField (Build_fdesc (Some "yuxr") (SzInt 21%Z) TFloat (FrF (FsPct true false false 21 14 true true)) DfNone None true 32%N false None 0%Z false);
  (* pynitf/nitf_tre_rsmida.py:43 *) RField (Build_fdesc (Some "yuyr") (SzInt 21%Z) TFloat (FrF (FsPct true false false 21 14 true true)) DfNone None true 32%N false None 0%Z false);
  (* pynitf/nitf_tre_rsmida.py:44 *) RField (Build_fdesc (Some "yuzr") (SzInt 21%Z) TFloat (FrF (FsPct true false false 21 14 true true)) DfNone None true 32%N false None 0%Z false);
  (* pynitf/nitf_tre_rsmida.py:45 *) RField (Build_fdesc (Some "zuxr") (SzInt 21%Z) TFloat (FrF (FsPct true false false 21 14 true true)) DfNone None true 32%N false None 0%Z false);
  (* pynitf/nitf_tre_rsmida.py:46 *) RField (Build_fdesc (Some "zuyr") (SzInt 21%Z) TFloat (FrF (FsPct true false false 21 14 true true)) DfNone None true 32%N false None 0%Z false);
  (* pynitf/nitf_tre_rsmida.py:47 *) RField (Build_fdesc (Some "zuzr") (SzInt 21%Z) TFloat (FrF (FsPct true false false 21 14 true true)) DfNone None true 32%N false None 0%Z false);
  (* pynitf/nitf_tre_rsmida.py:48 *) RField (Build_fdesc (Some "v1x") (SzInt 21%Z) TFloat (FrF (FsPct true false false 21 14 true true)) DfNone None false 32%N false None 0%Z false);
  (* pynitf/nitf_tre_rsmida.py:49 *) RField (Build_fdesc (Some "v1y") (SzInt 21%Z) TFloat (FrF (FsPct true false false 21 14 true true)) DfNone None false 32%N false None 0%Z false);
  (* pynitf/nitf_tre_rsmida.py:50 *) RField (Build_fdesc (Some "v1z") (SzInt 21%Z) TFloat (FrF (FsPct true false false 21 14 true true)) DfNone None false 32%N false None 0%Z false);
  (* pynitf/nitf_tre_rsmida.py:51 *) RField (Build_fdesc (Some "v2x") (SzInt 21%Z) TFloat (FrF (FsPct true false false 21 14 true true)) DfNone None false 32%N false None 0%Z false);
  (* pynitf/nitf_tre_rsmida.py:52 *) RField (Build_fdesc (Some "v2y") (SzInt 21%Z) TFloat (FrF (FsPct true false false 21 14 true true)) DfNone None false 32%N false None 0%Z false);
  (* pynitf/nitf_tre_rsmida.py:53 *) RField (Build_fdesc (Some "v2z") (SzInt 21%Z) TFloat (FrF (FsPct true false false 21 14 true true)) DfNone None false 32%N false None 0%Z false);
  (* pynitf/nitf_tre_rsmida.py:54 *) RField (Build_fdesc (Some "v3x") (SzInt 21%Z) TFloat (FrF (FsPct true false false 21 14 true true)) DfNone None false 32%N false None 0%Z false);
  (* pynitf/nitf_tre_rsmida.py:55 *) RField (Build_fdesc (Some "v3y") (SzInt 21%Z) TFloat (FrF (FsPct true false false 21 14 true true)) DfNone None false 32%N false None 0%Z false);
  (* pynitf/nitf_tre_rsmida.py:56 *) RField (Build_fdesc (Some "v3z") (SzInt 21%Z) TFloat (FrF (FsPct true false false 21 14 true true)) DfNone None false 32%N false None 0%Z false);
  (* pynitf/nitf_tre_rsmida.py:57 *) RField (Build_fdesc (Some "v4x") (SzInt 21%Z) TFloat (FrF (FsPct true false false 21 14 true true)) DfNone None false 32%N false None 0%Z false);
  (* pynitf/nitf_tre_rsmida.py:58 *) RField (Build_fdesc (Some "v4y") (SzInt 21%Z) TFloat (FrF (FsPct true false false 21 14 true true)) DfNone None false 32%N false None 0%Z false);
  (* pynitf/nitf_tre_rsmida.py:59 *) RField (Build_fdesc (Some "v4z") (SzInt 21%Z) TFloat (FrF (FsPct true false false 21 14 true true)) DfNone None false 32%N false None 0%Z false);
  (* pynitf/nitf_tre_rsmida.py:60 *) RField (Build_fdesc (Some "v5x") (SzInt 21%Z) TFloat (FrF (FsPct true false false 21 14 true true)) DfNone None false 32%N false None 0%Z false);
  (* pynitf/nitf_tre_rsmida.py:61 *) RField (Build_fdesc (Some "v5y") (SzInt 21%Z) TFloat (FrF (FsPct true false false 21 14 true true)) DfNone None false 32%N false None 0%Z false);
  (* pynitf/nitf_tre_rsmida.py:62 *) RField (Build_fdesc (Some "v5z") (SzInt 21%Z) TFloat (FrF (FsPct true false false 21 14 true true)) DfNone None false 32%N false None 0%Z false);
  (* pynitf/nitf_tre_rsmida.py:63 *) RField (Build_fdesc (Some "v6x") (SzInt 21%Z) TFloat (FrF (FsPct true false false 21 14 true true)) DfNone None false 32%N false None 0%Z false);
  (* pynitf/nitf_tre_rsmida.py:64 *) RField (Build_fdesc (Some "v6y") (SzInt 21%Z) TFloat (FrF (FsPct true false false 21 14 true true)) DfNone None false 32%N false None 0%Z false);
  (* pynitf/nitf_tre_rsmida.py:65 *) RField (Build_fdesc (Some "v6z") (SzInt 21%Z) TFloat (FrF (FsPct true false false 21 14 true true)) DfNone None false 32%N false None 0%Z false);
  (* pynitf/nitf_tre_rsmida.py:66 *) RField (Build_fdesc (Some "v7x") (SzInt 21%Z) TFloat (FrF (FsPct true false false 21 14 true true)) DfNone None false 32%N false None 0%Z false);
  (* pynitf/nitf_tre_rsmida.py:67 *) RField (Build_fdesc (Some "v7y") (SzInt 21%Z) TFloat (FrF (FsPct true false false 21 14 true true)) DfNone None false 32%N false None 0%Z false);
  (* pynitf/nitf_tre_rsmida.py:68 *) RField (Build_fdesc (Some "v7z") (SzInt 21%Z) TFloat (FrF (FsPct true false false 21 14 true true)) DfNone None false 32%N false None 0%Z false);
  (* pynitf/nitf_tre_rsmida.py:69 *) RField (Build_fdesc (Some "v8x") (SzInt 21%Z) TFloat (FrF (FsPct true false false 21 14 true true)) DfNone None false 32%N false None 0%Z false);
  (* pynitf/nitf_tre_rsmida.py:70 *) RField (Build_fdesc (Some "v8y") (SzInt 21%Z) TFloat (FrF (FsPct true false false 21 14 true true)) DfNone None false 32%N false None 0%Z false);
  (* pynitf/nitf_tre_rsmida.py:71 *) RField (Build_fdesc (Some "v8z") (SzInt 21%Z) TFloat (FrF (FsPct true false false 21 14 true true)) DfNone None false 32%N false None 0%Z false);
  (* pynitf/nitf_tre_rsmida.py:72 *) RField (Build_fdesc (Some "grpx") (SzInt 21%Z) TFloat (FrF (FsPct true false false 21 14 true true)) DfNone None true 32%N false None 0%Z false);
  (* pynitf/nitf_tre_rsmida.py:73 *) RField (Build_fdesc (Some "grpy") (SzInt 21%Z) TFloat (FrF (FsPct true false false 21 14 true true)) DfNone None true 32%N false None 0%Z false);
  (* pynitf/nitf_tre_rsmida.py:74 *) RField (Build_fdesc (Some "grpz") (SzInt 21%Z) TFloat (FrF (FsPct true false false 21 14 true true)) DfNone None true 32%N false None 0%Z false);
  (* pynitf/nitf_tre_rsmida.py:75 *) RField (Build_fdesc (Some "fullr") (SzInt 8%Z) TInt FrNone DfNone None true 32%N false None 0%Z false);
  (* pynitf/nitf_tre_rsmida.py:76 *) RField (Build_fdesc (Some "fullc") (SzInt 8%Z) TInt FrNone DfNone None true 32%N false None 0%Z false);
  (* pynitf/nitf_tre_rsmida.py:77 *) RField (Build_fdesc (Some "minr") (SzInt 8%Z) TInt FrNone DfNone None false 32%N false None 0%Z false);
  (* pynitf/nitf_tre_rsmida.py:78 *) RField (Build_fdesc (Some "maxr") (SzInt 8%Z) TInt FrNone DfNone None false 32%N false None 0%Z false);
  (* pynitf/nitf_tre_rsmida.py:79 *) RField (Build_fdesc (Some "minc") (SzInt 8%Z) TInt FrNone DfNone None false 32%N false None 0%Z false);
  (* pynitf/nitf_tre_rsmida.py:80 *) RField (Build_fdesc (Some "maxc") (SzInt 8%Z) TInt FrNone DfNone None false 32%N false None 0%Z false);
  (* pynitf/nitf_tre_rsmida.py:81 *) RField (Build_fdesc (Some "ie0") (SzInt 21%Z) TFloat (FrF (FsPct true false false 21 14 true true)) DfNone None true 32%N false None 0%Z false);
  (* pynitf/nitf_tre_rsmida.py:82 *) RField (Build_fdesc (Some "ier") (SzInt 21%Z) TFloat (FrF (FsPct true false false 21 14 true true)) DfNone None true 32%N false None 0%Z false);
  (* pynitf/nitf_tre_rsmida.py:83 *) RField (Build_fdesc (Some "iec") (SzInt 21%Z) TFloat (FrF (FsPct true false false 21 14 true true)) DfNone None true 32%N false None 0%Z false);
  (* pynitf/nitf_tre_rsmida.py:84 *) RField (Build_fdesc (Some "ierr") (SzInt 21%Z) TFloat (FrF (FsPct true false false 21 14 true true)) DfNone None true 32%N false None 0%Z false);
  (* pynitf/nitf_tre_rsmida.py:85 *) RField (Build_fdesc (Some "ierc") (SzInt 21%Z) TFloat (FrF (FsPct true false false 21 14 true true)) DfNone None true 32%N false None 0%Z false);
  (* pynitf/nitf_tre_rsmida.py:86 *) RField (Build_fdesc (Some "iecc") (SzInt 21%Z) TFloat (FrF (FsPct true false false 21 14 true true)) DfNone None true 32%N false None 0%Z false);
  (* pynitf/nitf_tre_rsmida.py:87 *) RField (Build_fdesc (Some "ia0") (SzInt 21%Z) TFloat (FrF (FsPct true false false 21 14 true true)) DfNone None true 32%N false None 0%Z false);
  (* pynitf/nitf_tre_rsmida.py:88 *) RField (Build_fdesc (Some "iar") (SzInt 21%Z) TFloat (FrF (FsPct true false false 21 14 true true)) DfNone None true 32%N false None 0%Z false);
  (* pynitf/nitf_tre_rsmida.py:89 *) RField (Build_fdesc (Some "iac") (SzInt 21%Z) TFloat (FrF (FsPct true false false 21 14 true true)) DfNone None true 32%N false None 0%Z false);
  (* pynitf/nitf_tre_rsmida.py:90 *) RField (Build_fdesc (Some "iarr") (SzInt 21%Z) TFloat (FrF (FsPct true false false 21 14 true true)) DfNone None true 32%N false None 0%Z false);
  (* pynitf/nitf_tre_rsmida.py:91 *) RField (Build_fdesc (Some "iarc") (SzInt 21%Z) TFloat (FrF (FsPct true false false 21 14 true true)) DfNone None true 32%N false None 0%Z false);
  (* pynitf/nitf_tre_rsmida.py:92 *) RField (Build_fdesc (Some "iacc") (SzInt 21%Z) TFloat (FrF (FsPct true false false 21 14 true true)) DfNone None true 32%N false None 0%Z false);
  (* pynitf/nitf_tre_rsmida.py:93 *) RField (Build_fdesc (Some "spx") (SzInt 21%Z) TFloat (FrF (FsPct true false false 21 14 true true)) DfNone None true 32%N false None 0%Z false);
  (* pynitf/nitf_tre_rsmida.py:94 *) RField (Build_fdesc (Some "svx") (SzInt 21%Z) TFloat (FrF (FsPct true false false 21 14 true true)) DfNone None true 32%N false None 0%Z false);
  (* pynitf/nitf_tre_rsmida.py:95 *) RField (Build_fdesc (Some "sax") (SzInt 21%Z) TFloat (FrF (FsPct true false false 21 14 true true)) DfNone None true 32%N false None 0%Z false);
  (* pynitf/nitf_tre_rsmida.py:96 *) RField (Build_fdesc (Some "spy") (SzInt 21%Z) TFloat (FrF (FsPct true false false 21 14 true true)) DfNone None true 32%N false None 0%Z false);
  (* pynitf/nitf_tre_rsmida.py:97 *) RField (Build_fdesc (Some "svy") (SzInt 21%Z) TFloat (FrF (FsPct true false false 21 14 true true)) DfNone None true 32%N false None 0%Z false);
  (* pynitf/nitf_tre_rsmida.py:98 *) RField (Build_fdesc (Some "say") (SzInt 21%Z) TFloat (FrF (FsPct true false false 21 14 true true)) DfNone None true 32%N false None 0%Z false);
  (* pynitf/nitf_tre_rsmida.py:99 *) RField (Build_fdesc (Some "spz") (SzInt 21%Z) TFloat (FrF (FsPct true false false 21 14 true true)) DfNone None true 32%N false None 0%Z false);
  (* pynitf/nitf_tre_rsmida.py:100 *) RField (Build_fdesc (Some "svz") (SzInt 21%Z) TFloat (FrF (FsPct true false false 21 14 true true)) DfNone None true 32%N false None 0%Z false);
  (* pynitf/nitf_tre_rsmida.py:101 *) RField (Build_fdesc (Some "saz") (SzInt 21%Z) TFloat (FrF (FsPct true false false 21 14 true true)) DfNone None true 32%N false None 0%Z false)
].

(** pynitf/nitf_tre_rsmpca.py, class TreRSMPCA (line 77), table at line 19. *)
Definition desc_TreRSMPCA : list row := [
  (* pynitf/nitf_tre_rsmpca.py:19 *) RField (Build_fdesc (Some "iid") (SzInt 80%Z) TStr FrNone DfNone None true 32%N false None 0%Z false);
  (* pynitf/nitf_tre_rsmpca.py:20 *) RField (Build_fdesc (Some "edition") (SzInt 40%Z) TStr FrNone DfNone None false 32%N false None 0%Z false);
  (* pynitf/nitf_tre_rsmpca.py:21 *) RField (Build_fdesc (Some "rsn") (SzInt 3%Z) TInt FrNone DfNone None false 32%N false None 0%Z false);
  (* pynitf/nitf_tre_rsmpca.py:22 *) RField (Build_fdesc (Some "csn") (SzInt 3%Z) TInt FrNone DfNone None false 32%N false None 0%Z false);
  (* pynitf/nitf_tre_rsmpca.py:23 *) RField (Build_fdesc (Some "rfep") (SzInt 21%Z) TFloat (FrF (FsPct true false false 21 14 true true)) DfNone None true 32%N false None 0%Z false);
  (* pynitf/nitf_tre_rsmpca.py:25 *) RField (Build_fdesc (Some "cfep") (SzInt 21%Z) TFloat (FrF (FsPct true false false 21 14 true true)) DfNone None true 32%N false None 0%Z false);
  (* pynitf/nitf_tre_rsmpca.py:27 *) RField (Build_fdesc (Some "rnrmo") (SzInt 21%Z) TFloat (FrF (FsPct true false false 21 14 true true)) DfNone None false 32%N false None 0%Z false);
  (* pynitf/nitf_tre_rsmpca.py:29 *) RField (Build_fdesc (Some "cnrmo") (SzInt 21%Z) TFloat (FrF (FsPct true false false 21 14 true true)) DfNone None false 32%N false None 0%Z false);
  (* pynitf/nitf_tre_rsmpca.py:31 *) RField (Build_fdesc (Some "xnrmo") (SzInt 21%Z) TFloat (FrF (FsPct true false false 21 14 true true)) DfNone None false 32%N false None 0%Z false);
  (* pynitf/nitf_tre_rsmpca.py:33 *) RField (Build_fdesc (Some "ynrmo") (SzInt 21%Z) TFloat (FrF (FsPct true false false 21 14 true true)) DfNone None false 32%N false None 0%Z false);
  (* pynitf/nitf_tre_rsmpca.py:35 *) RField (Build_fdesc (Some "znrmo") (SzInt 21%Z) TFloat (FrF (FsPct true false false 21 14 true true)) DfNone None false 32%N false None 0%Z false);
  (* pynitf/nitf_tre_rsmpca.py:37 *) RField (Build_fdesc (Some "rnrmsf") (SzInt 21%Z) TFloat (FrF (FsPct true false false 21 14 true true)) DfNone None false 32%N false None 0%Z false);
  (* pynitf/nitf_tre_rsmpca.py:39 *) RField (Build_fdesc (Some "cnrmsf") (SzInt 21%Z) TFloat (FrF (FsPct true false false 21 14 true true)) DfNone None false 32%N false None 0%Z false);
  (* pynitf/nitf_tre_rsmpca.py:41 *) RField (Build_fdesc (Some "xnrmsf") (SzInt 21%Z) TFloat (FrF (FsPct true false false 21 14 true true)) DfNone None false 32%N false None 0%Z false);
  (* pynitf/nitf_tre_rsmpca.py:43 *) RField (Build_fdesc (Some "ynrmsf") (SzInt 21%Z) TFloat (FrF (FsPct true false false 21 14 true true)) DfNone None false 32%N false None 0%Z false);
  (* pynitf/nitf_tre_rsmpca.py:45 *) RField (Build_fdesc (Some "znrmsf") (SzInt 21%Z) TFloat (FrF (FsPct true false false 21 14 true true)) DfNone None false 32%N false None 0%Z false);
  (* pynitf/nitf_tre_rsmpca.py:47 *) RField (Build_fdesc (Some "rnpwrx") (SzInt 1%Z) TInt FrNone DfNone None false 32%N false None 0%Z false);
  (* pynitf/nitf_tre_rsmpca.py:48 *) RField (Build_fdesc (Some "rnpwry") (SzInt 1%Z) TInt FrNone DfNone None false 32%N false None 0%Z false);
  (* pynitf/nitf_tre_rsmpca.py:49 *) RField (Build_fdesc (Some "rnpwrz") (SzInt 1%Z) TInt FrNone DfNone None false 32%N false None 0%Z false);
  (* pynitf/nitf_tre_rsmpca.py:50 *) RField (Build_fdesc (Some "rntrms") (SzInt 3%Z) TInt FrNone DfNone None false 32%N false None 0%Z false);
  (* pynitf/nitf_tre_rsmpca.py:51 *)
  RLoop (EFld "rntrms" 0) [
    (* pynitf/nitf_tre_rsmpca.py:52 *) RField (Build_fdesc (Some "rnpcf") (SzInt 21%Z) TFloat (FrF (FsPct true false false 21 14 true true)) DfNone None false 32%N false None 0%Z false)];
  (* pynitf/nitf_tre_rsmpca.py:54 *) RField (Build_fdesc (Some "rdpwrx") (SzInt 1%Z) TInt FrNone DfNone None false 32%N false None 0%Z false);
  (* pynitf/nitf_tre_rsmpca.py:55 *) RField (Build_fdesc (Some "rdpwry") (SzInt 1%Z) TInt FrNone DfNone None false 32%N false None 0%Z false);
  (* pynitf/nitf_tre_rsmpca.py:56 *) RField (Build_fdesc (Some "rdpwrz") (SzInt 1%Z) TInt FrNone DfNone None false 32%N false None 0%Z false);
  (* pynitf/nitf_tre_rsmpca.py:57 *) RField (Build_fdesc (Some "rdtrms") (SzInt 3%Z) TInt FrNone DfNone None false 32%N false None 0%Z false);
  (* pynitf/nitf_tre_rsmpca.py:58 *)
  RLoop (EFld "rdtrms" 0) [
    (* pynitf/nitf_tre_rsmpca.py:59 *) RField (Build_fdesc (Some "rdpcf") (SzInt 21%Z) TFloat (FrF (FsPct true false false 21 14 true true)) DfNone None false 32%N false None 0%Z false)];
  (* pynitf/nitf_tre_rsmpca.py:61 *) RField (Build_fdesc (Some "cnpwrx") (SzInt 1%Z) TInt FrNone DfNone None false 32%N false None 0%Z false);
  (* pynitf/nitf_tre_rsmpca.py:62 *) RField (Build_fdesc (Some "cnpwry") (SzInt 1%Z) TInt FrNone DfNone None false 32%N false None 0%Z false);
  (* pynitf/nitf_tre_rsmpca.py:63 *) RField (Build_fdesc (Some "cnpwrz") (SzInt 1%Z) TInt FrNone DfNone None false 32%N false None 0%Z false);
  (* pynitf/nitf_tre_rsmpca.py:64 *) RField (Build_fdesc (Some "cntrms") (SzInt 3%Z) TInt FrNone DfNone None false 32%N false None 0%Z false);
  (* pynitf/nitf_tre_rsmpca.py:65 *)
  RLoop (EFld "cntrms" 0) [
    (* pynitf/nitf_tre_rsmpca.py:66 *) RField (Build_fdesc (Some "cnpcf") (SzInt 21%Z) TFloat (FrF (FsPct true false false 21 14 true true)) DfNone None false 32%N false None 0%Z false)];
  (* pynitf/nitf_tre_rsmpca.py:68 *) RField (Build_fdesc (Some "cdpwrx") (SzInt 1%Z) TInt FrNone DfNone None false 32%N false None 0%Z false);
  (* pynitf/nitf_tre_rsmpca.py:69 *) RField (Build_fdesc (Some "cdpwry") (SzInt 1%Z) TInt FrNone DfNone None false 32%N false None 0%Z false);
  (* pynitf/nitf_tre_rsmpca.py:70 *) RField (Build_fdesc (Some "cdpwrz") (SzInt 1%Z) TInt FrNone DfNone None false 32%N false None 0%Z false);
  (* pynitf/nitf_tre_rsmpca.py:71 *) RField (Build_fdesc (Some "cdtrms") (SzInt 3%Z) TInt FrNone DfNone None false 32%N false None 0%Z false);
  (* pynitf/nitf_tre_rsmpca.py:72 *)
  RLoop (EFld "cdtrms" 0) [
    (* pynitf/nitf_tre_rsmpca.py:73 *) RField (Build_fdesc (Some "cdpcf") (SzInt 21%Z) TFloat (FrF (FsPct true false false 21 14 true true)) DfNone None false 32%N false None 0%Z false)]
].

(** pynitf/nitf_tre_rsmpia.py, class TreRSMPIA (line 48), table at line 19. *)
Definition desc_TreRSMPIA : list row := [
  (* pynitf/nitf_tre_rsmpia.py:19 *) RField (Build_fdesc (Some "iid") (SzInt 80%Z) TStr FrNone DfNone None true 32%N false None 0%Z false);
  (* pynitf/nitf_tre_rsmpia.py:20 *) RField (Build_fdesc (Some "edition") (SzInt 40%Z) TStr FrNone DfNone None false 32%N false None 0%Z false);
  (* pynitf/nitf_tre_rsmpia.py:21 *) RField (Build_fdesc (Some "r0") (SzInt 21%Z) TFloat (FrF (FsPct true false false 21 14 true true)) DfNone None false 32%N false None 0%Z false);
  (* pynitf/nitf_tre_rsmpia.py:22 *) RField (Build_fdesc (Some "rx") (SzInt 21%Z) TFloat (FrF (FsPct true false false 21 14 true true)) DfNone None false 32%N false None 0%Z false);
  (* pynitf/nitf_tre_rsmpia.py:23 *) RField (Build_fdesc (Some "ry") (SzInt 21%Z) TFloat (FrF (FsPct true false false 21 14 true true)) DfNone None false 32%N false None 0%Z false);
  (* pynitf/nitf_tre_rsmpia.py:24 *) RField (Build_fdesc (Some "rz") (SzInt 21%Z) TFloat (FrF (FsPct true false false 21 14 true true)) DfNone None false 32%N false None 0%Z false);
  (* pynitf/nitf_tre_rsmpia.py:25 *) RField (Build_fdesc (Some "rxx") (SzInt 21%Z) TFloat (FrF (FsPct true false false 21 14 true true)) DfNone None false 32%N false None 0%Z false);
  (* pynitf/nitf_tre_rsmpia.py:26 *) RField (Build_fdesc (Some "rxy") (SzInt 21%Z) TFloat (FrF (FsPct true false false 21 14 true true)) DfNone None false 32%N false None 0%Z false);
  (* pynitf/nitf_tre_rsmpia.py:27 *) RField (Build_fdesc (Some "rxz") (SzInt 21%Z) TFloat (FrF (FsPct true false false 21 14 true true)) DfNone None false 32%N false None 0%Z false);
  (* pynitf/nitf_tre_rsmpia.py:28 *) RField (Build_fdesc (Some "ryy") (SzInt 21%Z) TFloat (FrF (FsPct true false false 21 14 true true)) DfNone None false 32%N false None 0%Z false);
  (* pynitf/nitf_tre_rsmpia.py:29 *) RField (Build_fdesc (Some "ryz") (SzInt 21%Z) TFloat (FrF (FsPct true false false 21 14 true true)) DfNone None false 32%N false None 0%Z false);
  (* pynitf/nitf_tre_rsmpia.py:30 *) RField (Build_fdesc (Some "rzz") (SzInt 21%Z) TFloat (FrF (FsPct true false false 21 14 true true)) DfNone None false 32%N false None 0%Z false);
  (* pynitf/nitf_tre_rsmpia.py:31 *) RField (Build_fdesc (Some "c0") (SzInt 21%Z) TFloat (FrF (FsPct true false false 21 14 true true)) DfNone None false 32%N false None 0%Z false);
  (* pynitf/nitf_tre_rsmpia.py:32 *) RField (Build_fdesc (Some "cx") (SzInt 21%Z) TFloat (FrF (FsPct true false false 21 14 true true)) DfNone None false 32%N false None 0%Z false);
  (* pynitf/nitf_tre_rsmpia.py:33 *) RField (Build_fdesc (Some "cy") (SzInt 21%Z) TFloat (FrF (FsPct true false false 21 14 true true)) DfNone None false 32%N false None 0%Z false);
  (* pynitf/nitf_tre_rsmpia.py:34 *) RField (Build_fdesc (Some "cz") (SzInt 21%Z) TFloat (FrF (FsPct true false false 21 14 true true)) DfNone None false 32%N false None 0%Z false);
  (* pynitf/nitf_tre_rsmpia.py:35 *) RField (Build_fdesc (Some "cxx") (SzInt 21%Z) TFloat (FrF (FsPct true false false 21 14 true true)) DfNone None false 32%N false None 0%Z false);
  (* pynitf/nitf_tre_rsmpia.py:36 *) RField (Build_fdesc (Some "cxy") (SzInt 21%Z) TFloat (FrF (FsPct true false false 21 14 true true)) DfNone None false 32%N false None 0%Z false);
  (* pynitf/nitf_tre_rsmpia.py:37 *) RField (Build_fdesc (Some "cxz") (SzInt 21%Z) TFloat (FrF (FsPct true false false 21 14 true true)) DfNone None false 32%N false None 0%Z false);
  (* pynitf/nitf_tre_rsmpia.py:38 *) RField (Build_fdesc (Some "cyy") (SzInt 21%Z) TFloat (FrF (FsPct true false false 21 14 true true)) DfNone None false 32%N false None 0%Z false);
  (* pynitf/nitf_tre_rsmpia.py:39 *) RField (Build_fdesc (Some "cyz") (SzInt 21%Z) TFloat (FrF (FsPct true false false 21 14 true true)) DfNone None false 32%N false None 0%Z false);
  (* pynitf/nitf_tre_rsmpia.py:40 *) RField (Build_fdesc (Some "czz") (SzInt 21%Z) TFloat (FrF (FsPct true false false 21 14 true true)) DfNone None false 32%N false None 0%Z false);
  (* pynitf/nitf_tre_rsmpia.py:41 *) RField (Build_fdesc (Some "rnis") (SzInt 3%Z) TInt FrNone DfNone None false 32%N false None 0%Z false);
  (* pynitf/nitf_tre_rsmpia.py:42 *) RField (Build_fdesc (Some "cnis") (SzInt 3%Z) TInt FrNone DfNone None false 32%N false None 0%Z false);
  (* pynitf/nitf_tre_rsmpia.py:43 *) RField (Build_fdesc (Some "tnis") (SzInt 3%Z) TInt FrNone DfNone None false 32%N false None 0%Z false);
  (* pynitf/nitf_tre_rsmpia.py:44 *) RField (Build_fdesc (Some "rssiz") (SzInt 21%Z) TFloat (FrF (FsPct true false false 21 14 true true)) DfNone None false 32%N false None 0%Z false);
  (* pynitf/nitf_tre_rsmpia.py:45 *) RField (Build_fdesc (Some "cssiz") (SzInt 21%Z) TFloat (FrF (FsPct true false false 21 14 true true)) DfNone None false 32%N false None 0%Z false)
].

(** pynitf/nitf_tre_sensrb.py, class TreSENSRB (line 249), table at line 29. *)
Definition desc_TreSENSRB : list row := [
  (* pynitf/nitf_tre_sensrb.py:30 *) RField (Build_fdesc (Some "general_data") (SzInt 1%Z) TStr FrNone (DfStr (str "N")) None false 32%N false None 0%Z false);
  (* pynitf/nitf_tre_sensrb.py:31 *) RField (Build_fdesc (Some "sensor") (SzInt 25%Z) TStr FrNone DfNone (Some (ECmp CEq (EFld "general_data" 0) (EStr (str "Y")))) false 32%N false None 0%Z false);
  (* pynitf/nitf_tre_sensrb.py:32 *) RField (Build_fdesc (Some "sensor_uri") (SzInt 32%Z) TStr FrNone DfNone (Some (ECmp CEq (EFld "general_data" 0) (EStr (str "Y")))) true 45%N false None 0%Z false);
  (* pynitf/nitf_tre_sensrb.py:33 *) RField (Build_fdesc (Some "platform") (SzInt 25%Z) TStr FrNone DfNone (Some (ECmp CEq (EFld "general_data" 0) (EStr (str "Y")))) false 32%N false None 0%Z false);
  (* pynitf/nitf_tre_sensrb.py:34 *) RField (Build_fdesc (Some "platform_uri") (SzInt 32%Z) TStr FrNone DfNone (Some (ECmp CEq (EFld "general_data" 0) (EStr (str "Y")))) true 45%N false None 0%Z false);
  (* pynitf/nitf_tre_sensrb.py:35 *) RField (Build_fdesc (Some "operation_domain") (SzInt 10%Z) TStr FrNone DfNone (Some (ECmp CEq (EFld "general_data" 0) (EStr (str "Y")))) false 32%N false None 0%Z false);
  (* pynitf/nitf_tre_sensrb.py:36 *) RField (Build_fdesc (Some "content_level") (SzInt 1%Z) TInt FrNone DfNone (Some (ECmp CEq (EFld "general_data" 0) (EStr (str "Y")))) false 32%N false None 0%Z false);
  (* pynitf/nitf_tre_sensrb.py:37 *) RField (Build_fdesc (Some "geodetic_system") (SzInt 5%Z) TStr FrNone DfNone (Some (ECmp CEq (EFld "general_data" 0) (EStr (str "Y")))) false 32%N false None 0%Z false);
  (* pynitf/nitf_tre_sensrb.py:38 *) RField (Build_fdesc (Some "geodetic_type") (SzInt 1%Z) TStr FrNone DfNone (Some (ECmp CEq (EFld "general_data" 0) (EStr (str "Y")))) false 32%N false None 0%Z false);
  (* pynitf/nitf_tre_sensrb.py:39 *) RField (Build_fdesc (Some "elevation_datum") (SzInt 3%Z) TStr FrNone DfNone (Some (ECmp CEq (EFld "general_data" 0) (EStr (str "Y")))) false 32%N false None 0%Z false);
  (* pynitf/nitf_tre_sensrb.py:40 *) RField (Build_fdesc (Some "length_unit") (SzInt 2%Z) TStr FrNone DfNone (Some (ECmp CEq (EFld "general_data" 0) (EStr (str "Y")))) false 32%N false None 0%Z false);
  (* pynitf/nitf_tre_sensrb.py:41 *) RField (Build_fdesc (Some "angular_unit") (SzInt 3%Z) TStr FrNone DfNone (Some (ECmp CEq (EFld "general_data" 0) (EStr (str "Y")))) false 32%N false None 0%Z false);
  (* pynitf/nitf_tre_sensrb.py:42 *) RField (Build_fdesc (Some "start_date") (SzInt 8%Z) TInt FrNone DfNone (Some (ECmp CEq (EFld "general_data" 0) (EStr (str "Y")))) false 32%N false None 0%Z false);
  (* pynitf/nitf_tre_sensrb.py:43 *) RField (Build_fdesc (Some "start_time") (SzInt 14%Z) TFloat (FrF (FsPct false true false 14 8 false false)) DfNone (Some (ECmp CEq (EFld "general_data" 0) (EStr (str "Y")))) false 32%N false None 0%Z false);
  (* pynitf/nitf_tre_sensrb.py:44 *) RField (Build_fdesc (Some "end_date") (SzInt 8%Z) TInt FrNone DfNone (Some (ECmp CEq (EFld "general_data" 0) (EStr (str "Y")))) false 32%N false None 0%Z false);
  (* pynitf/nitf_tre_sensrb.py:45 *) RField (Build_fdesc (Some "end_time") (SzInt 14%Z) TFloat (FrF (FsPct false true false 14 8 false false)) DfNone (Some (ECmp CEq (EFld "general_data" 0) (EStr (str "Y")))) false 32%N false None 0%Z false);
  (* pynitf/nitf_tre_sensrb.py:46 *) RField (Build_fdesc (Some "generation_count") (SzInt 2%Z) TInt (FrD (Build_dfmt false true false 2)) DfNone (Some (ECmp CEq (EFld "general_data" 0) (EStr (str "Y")))) false 32%N false None 0%Z false);
  (* pynitf/nitf_tre_sensrb.py:47 *) RField (Build_fdesc (Some "generation_date") (SzInt 8%Z) TInt FrNone DfNone (Some (ECmp CEq (EFld "general_data" 0) (EStr (str "Y")))) true 45%N false None 0%Z false);
  (* pynitf/nitf_tre_sensrb.py:48 *) RField (Build_fdesc (Some "generation_time") (SzInt 10%Z) TFloat (FrF (FsPct false true false 10 3 false false)) DfNone (Some (ECmp CEq (EFld "general_data" 0) (EStr (str "Y")))) true 45%N false None 0%Z false);
  (* pynitf/nitf_tre_sensrb.py:50 *) RField (Build_fdesc (Some "sensor_array_data") (SzInt 1%Z) TStr FrNone (DfStr (str "N")) None false 32%N false None 0%Z false);
  (* pynitf/nitf_tre_sensrb.py:51 *) RField (Build_fdesc (Some "detection") (SzInt 20%Z) TStr FrNone DfNone (Some (ECmp CEq (EFld "sensor_array_data" 0) (EStr (str "Y")))) false 32%N false None 0%Z false);
  (* pynitf/nitf_tre_sensrb.py:52 *) RField (Build_fdesc (Some "row_detectors") (SzInt 8%Z) TInt (FrD (Build_dfmt false true false 8)) DfNone (Some (ECmp CEq (EFld "sensor_array_data" 0) (EStr (str "Y")))) false 32%N false None 0%Z false);
  (* pynitf/nitf_tre_sensrb.py:53 *) RField (Build_fdesc (Some "column_detectors") (SzInt 8%Z) TInt (FrD (Build_dfmt false true false 8)) DfNone (Some (ECmp CEq (EFld "sensor_array_data" 0) (EStr (str "Y")))) false 32%N false None 0%Z false);
  (* pynitf/nitf_tre_sensrb.py:54 *) RField (Build_fdesc (Some "row_metric") (SzInt 8%Z) TFloat (FrF (FsPct false true false 8 6 false false)) DfNone (Some (ECmp CEq (EFld "sensor_array_data" 0) (EStr (str "Y")))) true 45%N false None 0%Z false);
  (* pynitf/nitf_tre_sensrb.py:55 *) RField (Build_fdesc (Some "column_metric") (SzInt 8%Z) TFloat (FrF (FsPct false true false 8 6 false false)) DfNone (Some (ECmp CEq (EFld "sensor_array_data" 0) (EStr (str "Y")))) true 45%N false None 0%Z false);
  (* pynitf/nitf_tre_sensrb.py:56 *) RField (Build_fdesc (Some "focal_length") (SzInt 8%Z) TFloat (FrF (FsPct false true false 8 6 false false)) DfNone (Some (ECmp CEq (EFld "sensor_array_data" 0) (EStr (str "Y")))) true 45%N false None 0%Z false);
  (* pynitf/nitf_tre_sensrb.py:57 *) RField (Build_fdesc (Some "row_fov") (SzInt 8%Z) TFloat (FrF (FsPct false true false 8 3 false false)) DfNone (Some (ECmp CEq (EFld "sensor_array_data" 0) (EStr (str "Y")))) true 45%N false None 0%Z false);
  (* pynitf/nitf_tre_sensrb.py:58 *) RField (Build_fdesc (Some "column_fov") (SzInt 8%Z) TFloat (FrF (FsPct false true false 8 3 false false)) DfNone (Some (ECmp CEq (EFld "sensor_array_data" 0) (EStr (str "Y")))) true 45%N false None 0%Z false);
  (* pynitf/nitf_tre_sensrb.py:59 *) RField (Build_fdesc (Some "calibrated") (SzInt 1%Z) TStr FrNone DfNone (Some (ECmp CEq (EFld "sensor_array_data" 0) (EStr (str "Y")))) false 32%N false None 0%Z false);
  (* pynitf/nitf_tre_sensrb.py:61 *) RField (Build_fdesc (Some "sensor_calibration_data") (SzInt 1%Z) TStr FrNone (DfStr (str "N")) None false 32%N false None 0%Z false);
  (* pynitf/nitf_tre_sensrb.py:62 *) RField (Build_fdesc (Some "calibration_unit") (SzInt 2%Z) TStr FrNone DfNone (Some (ECmp CEq (EFld "sensor_calibration_data" 0) (EStr (str "Y")))) false 32%N false None 0%Z false);
  (* pynitf/nitf_tre_sensrb.py:63 *) RField (Build_fdesc (Some "principal_point_offset_x") (SzInt 9%Z) TFloat (FrF (FsPct false true false 9 5 false false)) DfNone (Some (ECmp CEq (EFld "sensor_calibration_data" 0) (EStr (str "Y")))) true 45%N false None 0%Z false);
  (* pynitf/nitf_tre_sensrb.py:64 *) RField (Build_fdesc (Some "principal_point_offset_y") (SzInt 9%Z) TFloat (FrF (FsPct false true false 9 5 false false)) DfNone (Some (ECmp CEq (EFld "sensor_calibration_data" 0) (EStr (str "Y")))) true 45%N false None 0%Z false);
  (* pynitf/nitf_tre_sensrb.py:65 *) RField (Build_fdesc (Some "radial_distort_1") (SzInt 12%Z) TFloat (FrF (FsPct false true false 8 6 true false)) DfNone (Some (ECmp CEq (EFld "sensor_calibration_data" 0) (EStr (str "Y")))) true 45%N false None 0%Z false);
  (* pynitf/nitf_tre_sensrb.py:66 *) RField (Build_fdesc (Some "radial_distort_2") (SzInt 12%Z) TFloat (FrF (FsPct false true false 8 6 true false)) DfNone (Some (ECmp CEq (EFld "sensor_calibration_data" 0) (EStr (str "Y")))) true 45%N false None 0%Z false);
  (* pynitf/nitf_tre_sensrb.py:67 *) RField (Build_fdesc (Some "radial_distort_3") (SzInt 12%Z) TFloat (FrF (FsPct false true false 8 6 true false)) DfNone (Some (ECmp CEq (EFld "sensor_calibration_data" 0) (EStr (str "Y")))) true 45%N false None 0%Z false);
  (* pynitf/nitf_tre_sensrb.py:68 *) RField (Build_fdesc (Some "radial_distort_limit") (SzInt 9%Z) TFloat (FrF (FsPct false true false 9 2 false false)) DfNone (Some (ECmp CEq (EFld "sensor_calibration_data" 0) (EStr (str "Y")))) true 45%N false None 0%Z false);
  (* pynitf/nitf_tre_sensrb.py:69 *) RField (Build_fdesc (Some "decent_distort_1") (SzInt 12%Z) TFloat (FrF (FsPct false true false 8 6 true false)) DfNone (Some (ECmp CEq (EFld "sensor_calibration_data" 0) (EStr (str "Y")))) true 45%N false None 0%Z false);
  (* pynitf/nitf_tre_sensrb.py:70 *) RField (Build_fdesc (Some "decent_distort_2") (SzInt 12%Z) TFloat (FrF (FsPct false true false 8 6 true false)) DfNone (Some (ECmp CEq (EFld "sensor_calibration_data" 0) (EStr (str "Y")))) true 45%N false None 0%Z false);
  (* pynitf/nitf_tre_sensrb.py:71 *) RField (Build_fdesc (Some "affinity_distort_1") (SzInt 12%Z) TFloat (FrF (FsPct false true false 8 6 true false)) DfNone (Some (ECmp CEq (EFld "sensor_calibration_data" 0) (EStr (str "Y")))) true 45%N false None 0%Z false);
  (* pynitf/nitf_tre_sensrb.py:72 *) RField (Build_fdesc (Some "affinity_distort_2") (SzInt 12%Z) TFloat (FrF (FsPct false true false 8 6 true false)) DfNone (Some (ECmp CEq (EFld "sensor_calibration_data" 0) (EStr (str "Y")))) true 45%N false None 0%Z false);
  (* pynitf/nitf_tre_sensrb.py:73 *) RField (Build_fdesc (Some "calibration_date") (SzInt 8%Z) TStr FrNone DfNone (Some (ECmp CEq (EFld "sensor_calibration_data" 0) (EStr (str "Y")))) true 45%N false None 0%Z false);
  (* pynitf/nitf_tre_sensrb.py:75 *) RField (Build_fdesc (Some "image_formation_data") (SzInt 1%Z) TStr FrNone (DfStr (str "N")) None false 32%N false None 0%Z false);
  (* pynitf/nitf_tre_sensrb.py:76 *) RField (Build_fdesc (Some "method") (SzInt 15%Z) TStr FrNone DfNone (Some (ECmp CEq (EFld "image_formation_data" 0) (EStr (str "Y")))) false 32%N false None 0%Z false);
  (* pynitf/nitf_tre_sensrb.py:77 *) RField (Build_fdesc (Some "mode") (SzInt 3%Z) TStr FrNone DfNone (Some (ECmp CEq (EFld "image_formation_data" 0) (EStr (str "Y")))) false 32%N false None 0%Z false);
  (* pynitf/nitf_tre_sensrb.py:78 *) RField (Build_fdesc (Some "row_count") (SzInt 8%Z) TInt (FrD (Build_dfmt false true false 8)) DfNone (Some (ECmp CEq (EFld "image_formation_data" 0) (EStr (str "Y")))) false 32%N false None 0%Z false);
  (* pynitf/nitf_tre_sensrb.py:79 *) RField (Build_fdesc (Some "column_count") (SzInt 8%Z) TInt (FrD (Build_dfmt false true false 8)) DfNone (Some (ECmp CEq (EFld "image_formation_data" 0) (EStr (str "Y")))) false 32%N false None 0%Z false);
  (* pynitf/nitf_tre_sensrb.py:80 *) RField (Build_fdesc (Some "row_set") (SzInt 8%Z) TInt (FrD (Build_dfmt false true false 8)) DfNone (Some (ECmp CEq (EFld "image_formation_data" 0) (EStr (str "Y")))) false 32%N false None 0%Z false);
  (* pynitf/nitf_tre_sensrb.py:81 *) RField (Build_fdesc (Some "column_set") (SzInt 8%Z) TInt (FrD (Build_dfmt false true false 8)) DfNone (Some (ECmp CEq (EFld "image_formation_data" 0) (EStr (str "Y")))) false 32%N false None 0%Z false);
  (* pynitf/nitf_tre_sensrb.py:82 *) RField (Build_fdesc (Some "row_rate") (SzInt 10%Z) TFloat (FrF (FsPct false true false 10 8 false false)) DfNone (Some (ECmp CEq (EFld "image_formation_data" 0) (EStr (str "Y")))) false 32%N false None 0%Z false);
  (* pynitf/nitf_tre_sensrb.py:83 *) RField (Build_fdesc (Some "column_rate") (SzInt 10%Z) TFloat (FrF (FsPct false true false 10 8 false false)) DfNone (Some (ECmp CEq (EFld "image_formation_data" 0) (EStr (str "Y")))) false 32%N false None 0%Z false);
  (* pynitf/nitf_tre_sensrb.py:84 *) RField (Build_fdesc (Some "first_pixel_row") (SzInt 8%Z) TInt (FrD (Build_dfmt false true false 8)) DfNone (Some (ECmp CEq (EFld "image_formation_data" 0) (EStr (str "Y")))) false 32%N false None 0%Z false);
  (* pynitf/nitf_tre_sensrb.py:85 *) RField (Build_fdesc (Some "first_pixel_column") (SzInt 8%Z) TInt (FrD (Build_dfmt false true false 8)) DfNone (Some (ECmp CEq (EFld "image_formation_data" 0) (EStr (str "Y")))) false 32%N false None 0%Z false);
  (* pynitf/nitf_tre_sensrb.py:86 *) RField (Build_fdesc (Some "transform_params") (SzInt 1%Z) TInt FrNone DfNone (Some (ECmp CEq (EFld "image_formation_data" 0) (EStr (str "Y")))) false 32%N false None 0%Z false);
  (* pynitf/nitf_tre_sensrb.py:87 *) RField (Build_fdesc (Some "transform_param_1") (SzInt 12%Z) TStr FrNone DfNone (Some (EAnd (ECmp CEq (EFld "image_formation_data" 0) (EStr (str "Y"))) (ECmp CGe (EFld "transform_params" 0) (EInt 1%Z)))) false 32%N false None 0%Z false);
  (* pynitf/nitf_tre_sensrb.py:88 *) RField (Build_fdesc (Some "transform_param_2") (SzInt 12%Z) TStr FrNone DfNone (Some (EAnd (ECmp CEq (EFld "image_formation_data" 0) (EStr (str "Y"))) (ECmp CGe (EFld "transform_params" 0) (EInt 2%Z)))) false 32%N false None 0%Z false);
  (* pynitf/nitf_tre_sensrb.py:89 *) RField (Build_fdesc (Some "transform_param_3") (SzInt 12%Z) TStr FrNone DfNone (Some (EAnd (ECmp CEq (EFld "image_formation_data" 0) (EStr (str "Y"))) (ECmp CGe (EFld "transform_params" 0) (EInt 3%Z)))) false 32%N false None 0%Z false);
  (* pynitf/nitf_tre_sensrb.py:90 *) RField (Build_fdesc (Some "transform_param_4") (SzInt 12%Z) TStr FrNone DfNone (Some (EAnd (ECmp CEq (EFld "image_formation_data" 0) (EStr (str "Y"))) (ECmp CGe (EFld "transform_params" 0) (EInt 4%Z)))) false 32%N false None 0%Z false);
  (* pynitf/nitf_tre_sensrb.py:91 *) RField (Build_fdesc (Some "transform_param_5") (SzInt 12%Z) TStr FrNone DfNone (Some (EAnd (ECmp CEq (EFld "image_formation_data" 0) (EStr (str "Y"))) (ECmp CGe (EFld "transform_params" 0) (EInt 5%Z)))) false 32%N false None 0%Z false);
  (* pynitf/nitf_tre_sensrb.py:92 *) RField (Build_fdesc (Some "transform_param_6") (SzInt 12%Z) TStr FrNone DfNone (Some (EAnd (ECmp CEq (EFld "image_formation_data" 0) (EStr (str "Y"))) (ECmp CGe (EFld "transform_params" 0) (EInt 6%Z)))) false 32%N false None 0%Z false);
  (* pynitf/nitf_tre_sensrb.py:93 *) RField (Build_fdesc (Some "transform_param_7") (SzInt 12%Z) TStr FrNone DfNone (Some (EAnd (ECmp CEq (EFld "image_formation_data" 0) (EStr (str "Y"))) (ECmp CGe (EFld "transform_params" 0) (EInt 7%Z)))) false 32%N false None 0%Z false);
  (* pynitf/nitf_tre_sensrb.py:94 *) RField (Build_fdesc (Some "transform_param_8") (SzInt 12%Z) TStr FrNone DfNone (Some (EAnd (ECmp CEq (EFld "image_formation_data" 0) (EStr (str "Y"))) (ECmp CGe (EFld "transform_params" 0) (EInt 8%Z)))) false 32%N false None 0%Z false);
  (* pynitf/nitf_tre_sensrb.py:96 *) RField (Build_fdesc (Some "reference_time") (SzInt 12%Z) TFloat (FrF (FsPct false true false 12 6 false false)) DfNone None true 45%N false None 0%Z false);
  (* pynitf/nitf_tre_sensrb.py:97 *) RField (Build_fdesc (Some "reference_row") (SzInt 8%Z) TFloat (FrF (FsPct false true false 8 3 false false)) DfNone None true 45%N false None 0%Z false);
  (* pynitf/nitf_tre_sensrb.py:98 *) RField (Build_fdesc (Some "reference_column") (SzInt 8%Z) TFloat (FrF (FsPct false true false 8 3 false false)) DfNone None true 45%N false None 0%Z false);
  (* pynitf/nitf_tre_sensrb.py:100 *) RField (Build_fdesc (Some "latitude_or_x") (SzInt 11%Z) TFloat (FrF (FsPct false true false 11 2 false false)) DfNone None false 32%N false None 0%Z false);
  (* pynitf/nitf_tre_sensrb.py:101 *) RField (Build_fdesc (Some "longitude_or_y") (SzInt 12%Z) TFloat (FrF (FsPct false true false 12 2 false false)) DfNone None false 32%N false None 0%Z false);
  (* pynitf/nitf_tre_sensrb.py:102 *) RField (Build_fdesc (Some "altitude_or_z") (SzInt 11%Z) TFloat (FrF (FsPct false true false 11 2 false false)) DfNone None false 32%N false None 0%Z false);
  (* pynitf/nitf_tre_sensrb.py:103 *) RField (Build_fdesc (Some "sensor_x_offset") (SzInt 8%Z) TFloat (FrF (FsPct false true false 8 3 false false)) DfNone None false 32%N false None 0%Z false);
  (* pynitf/nitf_tre_sensrb.py:104 *) RField (Build_fdesc (Some "sensor_y_offset") (SzInt 8%Z) TFloat (FrF (FsPct false true false 8 3 false false)) DfNone None false 32%N false None 0%Z false);
  (* pynitf/nitf_tre_sensrb.py:105 *) RField (Build_fdesc (Some "sensor_z_offset") (SzInt 8%Z) TFloat (FrF (FsPct false true false 8 3 false false)) DfNone None false 32%N false None 0%Z false);
  (* pynitf/nitf_tre_sensrb.py:107 *) RField (Build_fdesc (Some "attitude_euler_angles") (SzInt 1%Z) TStr FrNone (DfStr (str "N")) None false 32%N false None 0%Z false);
  (* pynitf/nitf_tre_sensrb.py:108 *) RField (Build_fdesc (Some "sensor_angle_model") (SzInt 1%Z) TInt FrNone DfNone (Some (ECmp CEq (EFld "attitude_euler_angles" 0) (EStr (str "Y")))) false 32%N false None 0%Z false);
  (* pynitf/nitf_tre_sensrb.py:109 *) RField (Build_fdesc (Some "sensor_angle_1") (SzInt 10%Z) TFloat (FrF (FsPct false true false 10 5 false false)) DfNone (Some (ECmp CEq (EFld "attitude_euler_angles" 0) (EStr (str "Y")))) false 32%N false None 0%Z false);
  (* pynitf/nitf_tre_sensrb.py:111 *) RField (Build_fdesc (Some "sensor_angle_2") (SzInt 9%Z) TFloat (FrF (FsPct false true false 9 5 false false)) DfNone (Some (ECmp CEq (EFld "attitude_euler_angles" 0) (EStr (str "Y")))) false 32%N false None 0%Z false);
  (* pynitf/nitf_tre_sensrb.py:112 *) RField (Build_fdesc (Some "sensor_angle_3") (SzInt 10%Z) TFloat (FrF (FsPct false true false 10 5 false false)) DfNone (Some (ECmp CEq (EFld "attitude_euler_angles" 0) (EStr (str "Y")))) false 32%N false None 0%Z false);
  (* pynitf/nitf_tre_sensrb.py:113 *) RField (Build_fdesc (Some "platform_relative") (SzInt 1%Z) TStr FrNone DfNone (Some (ECmp CEq (EFld "attitude_euler_angles" 0) (EStr (str "Y")))) false 32%N false None 0%Z false);
  (* pynitf/nitf_tre_sensrb.py:114 *) RField (Build_fdesc (Some "platform_heading") (SzInt 9%Z) TFloat (FrF (FsPct false true false 9 5 false false)) DfNone (Some (ECmp CEq (EFld "attitude_euler_angles" 0) (EStr (str "Y")))) true 45%N false None 0%Z false);
  (* pynitf/nitf_tre_sensrb.py:115 *) RField (Build_fdesc (Some "platform_pitch") (SzInt 9%Z) TFloat (FrF (FsPct false true false 9 5 false false)) DfNone (Some (ECmp CEq (EFld "attitude_euler_angles" 0) (EStr (str "Y")))) true 45%N false None 0%Z false);
  (* pynitf/nitf_tre_sensrb.py:116 *) RField (Build_fdesc (Some "platform_roll") (SzInt 10%Z) TFloat (FrF (FsPct false true false 10 5 false false)) DfNone (Some (ECmp CEq (EFld "attitude_euler_angles" 0) (EStr (str "Y")))) true 45%N false None 0%Z false);
  (* pynitf/nitf_tre_sensrb.py:118 *) RField (Build_fdesc (Some "attitude_unit_vectors") (SzInt 1%Z) TStr FrNone (DfStr (str "N")) None false 32%N false None 0%Z false);
  (* pynitf/nitf_tre_sensrb.py:119 *) RField (Build_fdesc (Some "icx_north_or_x") (SzInt 10%Z) TFloat (FrF (FsPct false true false 10 7 false false)) DfNone (Some (ECmp CEq (EFld "attitude_unit_vectors" 0) (EStr (str "Y")))) false 32%N false None 0%Z false);
  (* pynitf/nitf_tre_sensrb.py:120 *) RField (Build_fdesc (Some "icx_east_or_y") (SzInt 10%Z) TFloat (FrF (FsPct false true false 10 7 false false)) DfNone (Some (ECmp CEq (EFld "attitude_unit_vectors" 0) (EStr (str "Y")))) false 32%N false None 0%Z false);
  (* pynitf/nitf_tre_sensrb.py:121 *) RField (Build_fdesc (Some "icx_down_or_z") (SzInt 10%Z) TFloat (FrF (FsPct false true false 10 7 false false)) DfNone (Some (ECmp CEq (EFld "attitude_unit_vectors" 0) (EStr (str "Y")))) false 32%N false None 0%Z false);
  (* pynitf/nitf_tre_sensrb.py:122 *) RField (Build_fdesc (Some "icy_north_or_x") (SzInt 10%Z) TFloat (FrF (FsPct false true false 10 7 false false)) DfNone (Some (ECmp CEq (EFld "attitude_unit_vectors" 0) (EStr (str "Y")))) false 32%N false None 0%Z false);
  (* pynitf/nitf_tre_sensrb.py:123 *) RField (Build_fdesc (Some "icy_east_or_y") (SzInt 10%Z) TFloat (FrF (FsPct false true false 10 7 false false)) DfNone (Some (ECmp CEq (EFld "attitude_unit_vectors" 0) (EStr (str "Y")))) false 32%N false None 0%Z false);
  (* pynitf/nitf_tre_sensrb.py:124 *) RField (Build_fdesc (Some "icy_down_or_z") (SzInt 10%Z) TFloat (FrF (FsPct false true false 10 7 false false)) DfNone (Some (ECmp CEq (EFld "attitude_unit_vectors" 0) (EStr (str "Y")))) false 32%N false None 0%Z false);
  (* pynitf/nitf_tre_sensrb.py:125 *) RField (Build_fdesc (Some "icz_north_or_x") (SzInt 10%Z) TFloat (FrF (FsPct false true false 10 7 false false)) DfNone (Some (ECmp CEq (EFld "attitude_unit_vectors" 0) (EStr (str "Y")))) false 32%N false None 0%Z false);
  (* pynitf/nitf_tre_sensrb.py:126 *) RField (Build_fdesc (Some "icz_east_or_y") (SzInt 10%Z) TFloat (FrF (FsPct false true false 10 7 false false)) DfNone (Some (ECmp CEq (EFld "attitude_unit_vectors" 0) (EStr (str "Y")))) false 32%N false None 0%Z false);
  (* pynitf/nitf_tre_sensrb.py:127 *) RField (Build_fdesc (Some "icz_down_or_z") (SzInt 10%Z) TFloat (FrF (FsPct false true false 10 7 false false)) DfNone (Some (ECmp CEq (EFld "attitude_unit_vectors" 0) (EStr (str "Y")))) false 32%N false None 0%Z false);
  (* pynitf/nitf_tre_sensrb.py:129 *) RField (Build_fdesc (Some "attitude_quaternion") (SzInt 1%Z) TStr FrNone (DfStr (str "N")) None false 32%N false None 0%Z false);
  (* pynitf/nitf_tre_sensrb.py:130 *) RField (Build_fdesc (Some "attitude_q1") (SzInt 10%Z) TFloat (FrF (FsPct false true false 10 7 false false)) DfNone (Some (ECmp CEq (EFld "attitude_quaternion" 0) (EStr (str "Y")))) false 32%N false None 0%Z false);
  (* pynitf/nitf_tre_sensrb.py:131 *) RField (Build_fdesc (Some "attitude_q2") (SzInt 10%Z) TFloat (FrF (FsPct false true false 10 7 false false)) DfNone (Some (ECmp CEq (EFld "attitude_quaternion" 0) (EStr (str "Y")))) false 32%N false None 0%Z false);
  (* pynitf/nitf_tre_sensrb.py:132 *) RField (Build_fdesc (Some "attitude_q3") (SzInt 10%Z) TFloat (FrF (FsPct false true false 10 7 false false)) DfNone (Some (ECmp CEq (EFld "attitude_quaternion" 0) (EStr (str "Y")))) false 32%N false None 0%Z false);
  (* pynitf/nitf_tre_sensrb.py:133 *) RField (Build_fdesc (Some "attitude_q4") (SzInt 10%Z) TFloat (FrF (FsPct false true false 10 7 false false)) DfNone (Some (ECmp CEq (EFld "attitude_quaternion" 0) (EStr (str "Y")))) false 32%N false None 0%Z false);
  (* pynitf/nitf_tre_sensrb.py:135 *) RField (Build_fdesc (Some "sensor_velocity_data") (SzInt 1%Z) TStr FrNone (DfStr (str "N")) None false 32%N false None 0%Z false);
  (* pynitf/nitf_tre_sensrb.py:136 *) RField (Build_fdesc (Some "velocity_north_or_x") (SzInt 9%Z) TFloat (FrF (FsPct false true false 9 2 false false)) DfNone (Some (ECmp CEq (EFld "sensor_velocity_data" 0) (EStr (str "Y")))) false 32%N false None 0%Z false);
  (* pynitf/nitf_tre_sensrb.py:137 *) RField (Build_fdesc (Some "velocity_east_or_y") (SzInt 9%Z) TFloat (FrF (FsPct false true false 9 2 false false)) DfNone (Some (ECmp CEq (EFld "sensor_velocity_data" 0) (EStr (str "Y")))) false 32%N false None 0%Z false);
  (* pynitf/nitf_tre_sensrb.py:138 *) RField (Build_fdesc (Some "velocity_down_or_z") (SzInt 9%Z) TFloat (FrF (FsPct false true false 9 2 false false)) DfNone (Some (ECmp CEq (EFld "sensor_velocity_data" 0) (EStr (str "Y")))) false 32%N false None 0%Z false);
  (* pynitf/nitf_tre_sensrb.py:140 *) RField (Build_fdesc (Some "point_set_data") (SzInt 2%Z) TInt FrNone DfNone None false 32%N false None 0%Z false);
  (* pynitf/nitf_tre_sensrb.py:141 *)
  RLoop (EFld "point_set_data" 0) [
    (* pynitf/nitf_tre_sensrb.py:142 *) RField (Build_fdesc (Some "point_set_type") (SzInt 25%Z) TStr FrNone DfNone None false 32%N false None 0%Z false);
    (* pynitf/nitf_tre_sensrb.py:143 *) RField (Build_fdesc (Some "point_count") (SzInt 3%Z) TInt FrNone DfNone None false 32%N false None 0%Z false);
    (* pynitf/nitf_tre_sensrb.py:144 *)
    RLoop (EFld "point_count" 1) [
      (* pynitf/nitf_tre_sensrb.py:145 *) RField (Build_fdesc (Some "p_row") (SzInt 8%Z) TInt FrNone DfNone None false 32%N false None 0%Z false);
      (* pynitf/nitf_tre_sensrb.py:146 *) RField (Build_fdesc (Some "p_column") (SzInt 8%Z) TInt FrNone DfNone None false 32%N false None 0%Z false);
      (* pynitf/nitf_tre_sensrb.py:147 *) RField (Build_fdesc (Some "p_latitude") (SzInt 10%Z) TFloat (FrF (FsPct false true false 10 6 false false)) DfNone None true 45%N false None 0%Z false);
      (* pynitf/nitf_tre_sensrb.py:148 *) RField (Build_fdesc (Some "p_longitude") (SzInt 11%Z) TFloat (FrF (FsPct false true false 11 6 false false)) DfNone None true 45%N false None 0%Z false);
      (* pynitf/nitf_tre_sensrb.py:149 *) RField (Build_fdesc (Some "p_elevation") (SzInt 6%Z) TFloat (FrF (FsPct false true false 6 1 false false)) DfNone None true 45%N false None 0%Z false);
      (* pynitf/nitf_tre_sensrb.py:150 *) RField (Build_fdesc (Some "p_range") (SzInt 8%Z) TFloat (FrF (FsPct false true false 8 1 false false)) DfNone None true 45%N false None 0%Z false)]];
  (* pynitf/nitf_tre_sensrb.py:154 *) RField (Build_fdesc (Some "time_stamped_data_sets") (SzInt 2%Z) TInt FrNone DfNone None false 32%N false None 0%Z false);
  (* pynitf/nitf_tre_sensrb.py:155 *)
  RLoop (EFld "time_stamped_data_sets" 0) [
    (* pynitf/nitf_tre_sensrb.py:156 *) RField (Build_fdesc (Some "time_stamp_type") (SzInt 3%Z) TStr FrNone DfNone None false 32%N false None 0%Z false);
    (* pynitf/nitf_tre_sensrb.py:157 *) RField (Build_fdesc (Some "time_stamp_count") (SzInt 4%Z) TInt FrNone DfNone None false 32%N false None 0%Z false);
    (* pynitf/nitf_tre_sensrb.py:158 *)
    RLoop (EFld "time_stamp_count" 1) [
      (* pynitf/nitf_tre_sensrb.py:159 *) RField (Build_fdesc (Some "time_stamp_time") (SzInt 12%Z) TFloat (FrF (FsPct false true false 12 6 false false)) DfNone None false 32%N false None 0%Z false);
      (* pynitf/nitf_tre_sensrb.py:160 *) RField (Build_fdesc (Some "time_stamp_value_06a") (SzInt 11%Z) TFloat (FrF (FsPct false true false 11 2 false false)) DfNone (Some (ECmp CEq (EFld "time_stamp_type" 1) (EStr (str "06a")))) false 32%N false None 0%Z false);
      (* pynitf/nitf_tre_sensrb.py:161 *) RField (Build_fdesc (Some "time_stamp_value_06b") (SzInt 12%Z) TFloat (FrF (FsPct false true false 12 2 false false)) DfNone (Some (ECmp CEq (EFld "time_stamp_type" 1) (EStr (str "06b")))) false 32%N false None 0%Z false);
      (* pynitf/nitf_tre_sensrb.py:162 *) RField (Build_fdesc (Some "time_stamp_value_06c") (SzInt 11%Z) TFloat (FrF (FsPct false true false 11 2 false false)) DfNone (Some (ECmp CEq (EFld "time_stamp_type" 1) (EStr (str "06c")))) false 32%N false None 0%Z false);
      (* pynitf/nitf_tre_sensrb.py:163 *) RField (Build_fdesc (Some "time_stamp_value_06d") (SzInt 8%Z) TFloat (FrF (FsPct false true false 8 3 false false)) DfNone (Some (ECmp CEq (EFld "time_stamp_type" 1) (EStr (str "06d")))) false 32%N false None 0%Z false);
      (* pynitf/nitf_tre_sensrb.py:164 *) RField (Build_fdesc (Some "time_stamp_value_06e") (SzInt 8%Z) TFloat (FrF (FsPct false true false 8 3 false false)) DfNone (Some (ECmp CEq (EFld "time_stamp_type" 1) (EStr (str "06e")))) false 32%N false None 0%Z false);
      (* pynitf/nitf_tre_sensrb.py:165 *) RField (Build_fdesc (Some "time_stamp_value_06f") (SzInt 8%Z) TFloat (FrF (FsPct false true false 8 3 false false)) DfNone (Some (ECmp CEq (EFld "time_stamp_type" 1) (EStr (str "06f")))) false 32%N false None 0%Z false);
      (* pynitf/nitf_tre_sensrb.py:166 *) RField (Build_fdesc (Some "time_stamp_value_07b") (SzInt 10%Z) TInt FrNone DfNone (Some (ECmp CEq (EFld "time_stamp_type" 1) (EStr (str "07b")))) false 32%N false None 0%Z false);
      (* pynitf/nitf_tre_sensrb.py:167 *) RField (Build_fdesc (Some "time_stamp_value_07c") (SzInt 9%Z) TInt FrNone DfNone (Some (ECmp CEq (EFld "time_stamp_type" 1) (EStr (str "07c")))) false 32%N false None 0%Z false);
      (* pynitf/nitf_tre_sensrb.py:168 *) RField (Build_fdesc (Some "time_stamp_value_07d") (SzInt 10%Z) TInt FrNone DfNone (Some (ECmp CEq (EFld "time_stamp_type" 1) (EStr (str "07d")))) false 32%N false None 0%Z false);
      (* pynitf/nitf_tre_sensrb.py:169 *) RField (Build_fdesc (Some "time_stamp_value_07f") (SzInt 9%Z) TInt FrNone DfNone (Some (ECmp CEq (EFld "time_stamp_type" 1) (EStr (str "07f")))) false 32%N false None 0%Z false);
      (* pynitf/nitf_tre_sensrb.py:170 *) RField (Build_fdesc (Some "time_stamp_value_07g") (SzInt 9%Z) TInt FrNone DfNone (Some (ECmp CEq (EFld "time_stamp_type" 1) (EStr (str "07g")))) false 32%N false None 0%Z false);
      (* pynitf/nitf_tre_sensrb.py:171 *) RField (Build_fdesc (Some "time_stamp_value_07h") (SzInt 10%Z) TInt FrNone DfNone (Some (ECmp CEq (EFld "time_stamp_type" 1) (EStr (str "07h")))) false 32%N false None 0%Z false);
      (* pynitf/nitf_tre_sensrb.py:172 *) RField (Build_fdesc (Some "time_stamp_value_08a") (SzInt 10%Z) TInt FrNone DfNone (Some (ECmp CEq (EFld "time_stamp_type" 1) (EStr (str "08a")))) false 32%N false None 0%Z false);
      (* pynitf/nitf_tre_sensrb.py:173 *) RField (Build_fdesc (Some "time_stamp_value_08b") (SzInt 10%Z) TInt FrNone DfNone (Some (ECmp CEq (EFld "time_stamp_type" 1) (EStr (str "08b")))) false 32%N false None 0%Z false);
      (* pynitf/nitf_tre_sensrb.py:174 *) RField (Build_fdesc (Some "time_stamp_value_08c") (SzInt 10%Z) TInt FrNone DfNone (Some (ECmp CEq (EFld "time_stamp_type" 1) (EStr (str "08c")))) false 32%N false None 0%Z false);
      (* pynitf/nitf_tre_sensrb.py:175 *) RField (Build_fdesc (Some "time_stamp_value_08d") (SzInt 10%Z) TInt FrNone DfNone (Some (ECmp CEq (EFld "time_stamp_type" 1) (EStr (str "08d")))) false 32%N false None 0%Z false);
      (* pynitf/nitf_tre_sensrb.py:176 *) RField (Build_fdesc (Some "time_stamp_value_08e") (SzInt 10%Z) TInt FrNone DfNone (Some (ECmp CEq (EFld "time_stamp_type" 1) (EStr (str "08e")))) false 32%N false None 0%Z false);
      (* pynitf/nitf_tre_sensrb.py:177 *) RField (Build_fdesc (Some "time_stamp_value_08f") (SzInt 10%Z) TInt FrNone DfNone (Some (ECmp CEq (EFld "time_stamp_type" 1) (EStr (str "08f")))) false 32%N false None 0%Z false);
      (* pynitf/nitf_tre_sensrb.py:178 *) RField (Build_fdesc (Some "time_stamp_value_08g") (SzInt 10%Z) TInt FrNone DfNone (Some (ECmp CEq (EFld "time_stamp_type" 1) (EStr (str "08g")))) false 32%N false None 0%Z false);
      (* pynitf/nitf_tre_sensrb.py:179 *) RField (Build_fdesc (Some "time_stamp_value_08h") (SzInt 10%Z) TInt FrNone DfNone (Some (ECmp CEq (EFld "time_stamp_type" 1) (EStr (str "08h")))) false 32%N false None 0%Z false);
      (* pynitf/nitf_tre_sensrb.py:180 *) RField (Build_fdesc (Some "time_stamp_value_08i") (SzInt 10%Z) TInt FrNone DfNone (Some (ECmp CEq (EFld "time_stamp_type" 1) (EStr (str "08i")))) false 32%N false None 0%Z false);
      (* pynitf/nitf_tre_sensrb.py:181 *) RField (Build_fdesc (Some "time_stamp_value_09a") (SzInt 10%Z) TFloat (FrF (FsPct false true false 10 5 false false)) DfNone (Some (ECmp CEq (EFld "time_stamp_type" 1) (EStr (str "09a")))) false 32%N false None 0%Z false);
      (* pynitf/nitf_tre_sensrb.py:182 *) RField (Build_fdesc (Some "time_stamp_value_09b") (SzInt 10%Z) TFloat (FrF (FsPct false true false 10 5 false false)) DfNone (Some (ECmp CEq (EFld "time_stamp_type" 1) (EStr (str "09b")))) false 32%N false None 0%Z false);
      (* pynitf/nitf_tre_sensrb.py:183 *) RField (Build_fdesc (Some "time_stamp_value_09c") (SzInt 10%Z) TFloat (FrF (FsPct false true false 10 5 false false)) DfNone (Some (ECmp CEq (EFld "time_stamp_type" 1) (EStr (str "09c")))) false 32%N false None 0%Z false);
      (* pynitf/nitf_tre_sensrb.py:184 *) RField (Build_fdesc (Some "time_stamp_value_09d") (SzInt 10%Z) TFloat (FrF (FsPct false true false 10 5 false false)) DfNone (Some (ECmp CEq (EFld "time_stamp_type" 1) (EStr (str "09d")))) false 32%N false None 0%Z false);
      (* pynitf/nitf_tre_sensrb.py:185 *) RField (Build_fdesc (Some "time_stamp_value_10a") (SzInt 9%Z) TInt FrNone DfNone (Some (ECmp CEq (EFld "time_stamp_type" 1) (EStr (str "10a")))) false 32%N false None 0%Z false);
      (* pynitf/nitf_tre_sensrb.py:186 *) RField (Build_fdesc (Some "time_stamp_value_10b") (SzInt 9%Z) TInt FrNone DfNone (Some (ECmp CEq (EFld "time_stamp_type" 1) (EStr (str "10b")))) false 32%N false None 0%Z false);
      (* pynitf/nitf_tre_sensrb.py:187 *) RField (Build_fdesc (Some "time_stamp_value_10c") (SzInt 9%Z) TInt FrNone DfNone (Some (ECmp CEq (EFld "time_stamp_type" 1) (EStr (str "10c")))) false 32%N false None 0%Z false)]];
  (* pynitf/nitf_tre_sensrb.py:192 *) RField (Build_fdesc (Some "pixel_referenced_data_sets") (SzInt 2%Z) TInt FrNone DfNone None false 32%N false None 0%Z false);
  (* pynitf/nitf_tre_sensrb.py:193 *)
  RLoop (EFld "pixel_referenced_data_sets" 0) [
    (* pynitf/nitf_tre_sensrb.py:194 *) RField (Build_fdesc (Some "pixel_reference_type") (SzInt 3%Z) TStr FrNone DfNone None false 32%N false None 0%Z false);
    (* pynitf/nitf_tre_sensrb.py:195 *) RField (Build_fdesc (Some "pixel_reference_count") (SzInt 4%Z) TInt FrNone DfNone None false 32%N false None 0%Z false);
    (* pynitf/nitf_tre_sensrb.py:196 *)
    RLoop (EFld "pixel_reference_count" 1) [
      (* pynitf/nitf_tre_sensrb.py:197 *) RField (Build_fdesc (Some "pixel_reference_row") (SzInt 8%Z) TInt FrNone DfNone None false 32%N false None 0%Z false);
      (* pynitf/nitf_tre_sensrb.py:198 *) RField (Build_fdesc (Some "pixel_reference_column") (SzInt 8%Z) TInt FrNone DfNone None false 32%N false None 0%Z false);
      (* pynitf/nitf_tre_sensrb.py:199 *) RField (Build_fdesc (Some "pixel_reference_value") (SzInt 11%Z) TInt FrNone DfNone (Some (ECmp CEq (EFld "pixel_reference_type" 1) (EStr (str "06a")))) false 32%N false None 0%Z false);
      (* pynitf/nitf_tre_sensrb.py:200 *) RField (Build_fdesc (Some "pixel_reference_value") (SzInt 12%Z) TInt FrNone DfNone (Some (ECmp CEq (EFld "pixel_reference_type" 1) (EStr (str "06b")))) false 32%N false None 0%Z false);
      (* pynitf/nitf_tre_sensrb.py:201 *) RField (Build_fdesc (Some "pixel_reference_value") (SzInt 11%Z) TInt FrNone DfNone (Some (ECmp CEq (EFld "pixel_reference_type" 1) (EStr (str "06c")))) false 32%N false None 0%Z false);
      (* pynitf/nitf_tre_sensrb.py:202 *) RField (Build_fdesc (Some "pixel_reference_value") (SzInt 8%Z) TInt FrNone DfNone (Some (ECmp CEq (EFld "pixel_reference_type" 1) (EStr (str "06d")))) false 32%N false None 0%Z false);
      (* pynitf/nitf_tre_sensrb.py:203 *) RField (Build_fdesc (Some "pixel_reference_value") (SzInt 8%Z) TInt FrNone DfNone (Some (ECmp CEq (EFld "pixel_reference_type" 1) (EStr (str "06e")))) false 32%N false None 0%Z false);
      (* pynitf/nitf_tre_sensrb.py:204 *) RField (Build_fdesc (Some "pixel_reference_value") (SzInt 8%Z) TInt FrNone DfNone (Some (ECmp CEq (EFld "pixel_reference_type" 1) (EStr (str "06f")))) false 32%N false None 0%Z false);
      (* pynitf/nitf_tre_sensrb.py:205 *) RField (Build_fdesc (Some "pixel_reference_value") (SzInt 10%Z) TInt FrNone DfNone (Some (ECmp CEq (EFld "pixel_reference_type" 1) (EStr (str "07b")))) false 32%N false None 0%Z false);
      (* pynitf/nitf_tre_sensrb.py:206 *) RField (Build_fdesc (Some "pixel_reference_value") (SzInt 9%Z) TInt FrNone DfNone (Some (ECmp CEq (EFld "pixel_reference_type" 1) (EStr (str "07c")))) false 32%N false None 0%Z false);
      (* pynitf/nitf_tre_sensrb.py:207 *) RField (Build_fdesc (Some "pixel_reference_value") (SzInt 10%Z) TInt FrNone DfNone (Some (ECmp CEq (EFld "pixel_reference_type" 1) (EStr (str "07d")))) false 32%N false None 0%Z false);
      (* pynitf/nitf_tre_sensrb.py:208 *) RField (Build_fdesc (Some "pixel_reference_value") (SzInt 9%Z) TInt FrNone DfNone (Some (ECmp CEq (EFld "pixel_reference_type" 1) (EStr (str "07f")))) false 32%N false None 0%Z false);
      (* pynitf/nitf_tre_sensrb.py:209 *) RField (Build_fdesc (Some "pixel_reference_value") (SzInt 9%Z) TInt FrNone DfNone (Some (ECmp CEq (EFld "pixel_reference_type" 1) (EStr (str "07g")))) false 32%N false None 0%Z false);
      (* pynitf/nitf_tre_sensrb.py:210 *) RField (Build_fdesc (Some "pixel_reference_value") (SzInt 10%Z) TInt FrNone DfNone (Some (ECmp CEq (EFld "pixel_reference_type" 1) (EStr (str "07h")))) false 32%N false None 0%Z false);
      (* pynitf/nitf_tre_sensrb.py:211 *) RField (Build_fdesc (Some "pixel_reference_value") (SzInt 10%Z) TInt FrNone DfNone (Some (ECmp CEq (EFld "pixel_reference_type" 1) (EStr (str "08a")))) false 32%N false None 0%Z false);
      (* pynitf/nitf_tre_sensrb.py:212 *) RField (Build_fdesc (Some "pixel_reference_value") (SzInt 10%Z) TInt FrNone DfNone (Some (ECmp CEq (EFld "pixel_reference_type" 1) (EStr (str "08b")))) false 32%N false None 0%Z false);
      (* pynitf/nitf_tre_sensrb.py:213 *) RField (Build_fdesc (Some "pixel_reference_value") (SzInt 10%Z) TInt FrNone DfNone (Some (ECmp CEq (EFld "pixel_reference_type" 1) (EStr (str "08c")))) false 32%N false None 0%Z false);
      (* pynitf/nitf_tre_sensrb.py:214 *) RField (Build_fdesc (Some "pixel_reference_value") (SzInt 10%Z) TInt FrNone DfNone (Some (ECmp CEq (EFld "pixel_reference_type" 1) (EStr (str "08d")))) false 32%N false None 0%Z false);
      (* pynitf/nitf_tre_sensrb.py:215 *) RField (Build_fdesc (Some "pixel_reference_value") (SzInt 10%Z) TInt FrNone DfNone (Some (ECmp CEq (EFld "pixel_reference_type" 1) (EStr (str "08e")))) false 32%N false None 0%Z false);
      (* pynitf/nitf_tre_sensrb.py:216 *) RField (Build_fdesc (Some "pixel_reference_value") (SzInt 10%Z) TInt FrNone DfNone (Some (ECmp CEq (EFld "pixel_reference_type" 1) (EStr (str "08f")))) false 32%N false None 0%Z false);
      (* pynitf/nitf_tre_sensrb.py:217 *) RField (Build_fdesc (Some "pixel_reference_value") (SzInt 10%Z) TInt FrNone DfNone (Some (ECmp CEq (EFld "pixel_reference_type" 1) (EStr (str "08g")))) false 32%N false None 0%Z false);
      (* pynitf/nitf_tre_sensrb.py:218 *) RField (Build_fdesc (Some "pixel_reference_value") (SzInt 10%Z) TInt FrNone DfNone (Some (ECmp CEq (EFld "pixel_reference_type" 1) (EStr (str "08h")))) false 32%N false None 0%Z false);
      (* pynitf/nitf_tre_sensrb.py:219 *) RField (Build_fdesc (Some "pixel_reference_value") (SzInt 10%Z) TInt FrNone DfNone (Some (ECmp CEq (EFld "pixel_reference_type" 1) (EStr (str "08i")))) false 32%N false None 0%Z false);
      (* pynitf/nitf_tre_sensrb.py:220 *) RField (Build_fdesc (Some "pixel_reference_value") (SzInt 10%Z) TInt FrNone DfNone (Some (ECmp CEq (EFld "pixel_reference_type" 1) (EStr (str "09a")))) false 32%N false None 0%Z false);
      (* pynitf/nitf_tre_sensrb.py:221 *) RField (Build_fdesc (Some "pixel_reference_value") (SzInt 10%Z) TInt FrNone DfNone (Some (ECmp CEq (EFld "pixel_reference_type" 1) (EStr (str "09b")))) false 32%N false None 0%Z false);
      (* pynitf/nitf_tre_sensrb.py:222 *) RField (Build_fdesc (Some "pixel_reference_value") (SzInt 10%Z) TInt FrNone DfNone (Some (ECmp CEq (EFld "pixel_reference_type" 1) (EStr (str "09c")))) false 32%N false None 0%Z false);
      (* pynitf/nitf_tre_sensrb.py:223 *) RField (Build_fdesc (Some "pixel_reference_value") (SzInt 10%Z) TInt FrNone DfNone (Some (ECmp CEq (EFld "pixel_reference_type" 1) (EStr (str "09d")))) false 32%N false None 0%Z false);
      (* pynitf/nitf_tre_sensrb.py:224 *) RField (Build_fdesc (Some "pixel_reference_value") (SzInt 9%Z) TInt FrNone DfNone (Some (ECmp CEq (EFld "pixel_reference_type" 1) (EStr (str "10a")))) false 32%N false None 0%Z false);
      (* pynitf/nitf_tre_sensrb.py:225 *) RField (Build_fdesc (Some "pixel_reference_value") (SzInt 9%Z) TInt FrNone DfNone (Some (ECmp CEq (EFld "pixel_reference_type" 1) (EStr (str "10b")))) false 32%N false None 0%Z false);
      (* pynitf/nitf_tre_sensrb.py:226 *) RField (Build_fdesc (Some "pixel_reference_value") (SzInt 9%Z) TInt FrNone DfNone (Some (ECmp CEq (EFld "pixel_reference_type" 1) (EStr (str "10c")))) false 32%N false None 0%Z false)]];
  (* pynitf/nitf_tre_sensrb.py:230 *) RField (Build_fdesc (Some "uncertainty_data") (SzInt 3%Z) TInt FrNone DfNone None false 32%N false None 0%Z false);
  (* pynitf/nitf_tre_sensrb.py:231 *)
  RLoop (EFld "uncertainty_data" 0) [
    (* pynitf/nitf_tre_sensrb.py:232 *) RField (Build_fdesc (Some "uncertainty_first_type") (SzInt 11%Z) TStr FrNone DfNone None false 32%N false None 0%Z false);
    (* pynitf/nitf_tre_sensrb.py:233 *) RField (Build_fdesc (Some "uncertainty_second_type") (SzInt 11%Z) TStr FrNone DfNone None true 45%N false None 0%Z false);
    (* pynitf/nitf_tre_sensrb.py:234 *) RField (Build_fdesc (Some "uncertainty_value") (SzInt 10%Z) TStr FrNone DfNone None false 32%N false None 0%Z false)];
  (* pynitf/nitf_tre_sensrb.py:237 *) RField (Build_fdesc (Some "additional_parameter_data") (SzInt 3%Z) TInt FrNone DfNone None false 32%N false None 0%Z false);
  (* pynitf/nitf_tre_sensrb.py:238 *)
  RLoop (EFld "additional_parameter_data" 0) [
    (* pynitf/nitf_tre_sensrb.py:239 *) RField (Build_fdesc (Some "parameter_name") (SzInt 25%Z) TStr FrNone DfNone None false 32%N false None 0%Z false);
    (* pynitf/nitf_tre_sensrb.py:240 *) RField (Build_fdesc (Some "parameter_size") (SzInt 3%Z) TInt FrNone DfNone None false 32%N false None 0%Z false);
    (* pynitf/nitf_tre_sensrb.py:241 *) RField (Build_fdesc (Some "parameter_count") (SzInt 4%Z) TInt FrNone DfNone None false 32%N false None 0%Z false);
    (* pynitf/nitf_tre_sensrb.py:242 *)
    RLoop (EFld "parameter_count" 1) [
      (* pynitf/nitf_tre_sensrb.py:243 *) RField (Build_fdesc (Some "parameter_value") (SzExpr (EFld "parameter_size" 1)) (TData KBytes) FrNone DfNone None false 32%N false None 0%Z true)]]
].

(** pynitf/nitf_tre_tminta.py, class TreTMINTA (line 20), table at line 12. *)
Definition desc_TreTMINTA : list row := [
  (* pynitf/nitf_tre_tminta.py:12 *) RField (Build_fdesc (Some "num_time_int") (SzInt 4%Z) TInt FrNone DfNone None false 32%N false None 0%Z false);
  (* pynitf/nitf_tre_tminta.py:13 *)
  RLoop (EFld "num_time_int" 0) [
    (* pynitf/nitf_tre_tminta.py:14 *) RField (Build_fdesc (Some "time_interval_index") (SzInt 6%Z) TInt FrNone DfNone None false 32%N false None 0%Z false);
    (* pynitf/nitf_tre_tminta.py:15 *) RField (Build_fdesc (Some "start_timestamp") (SzInt 24%Z) TStr FrNone DfNone None false 32%N false None 0%Z false);
    (* pynitf/nitf_tre_tminta.py:16 *) RField (Build_fdesc (Some "end_timestamp") (SzInt 24%Z) TStr FrNone DfNone None false 32%N false None 0%Z false)]
].

(** All tables of this file, by class name.
    (all the descriptions of this file, each cited above; nitf_field.py:787-817.) *)
Definition all_DescsTre2 : list (string * list row) := [
  ("TreMATESA", desc_TreMATESA);
  ("TreMICIDA", desc_TreMICIDA);
  ("TreMIMCSA", desc_TreMIMCSA);
  ("TreMTIMFA", desc_TreMTIMFA);
  ("TreMTIMSA", desc_TreMTIMSA);
  ("TrePIAIMC", desc_TrePIAIMC);
  ("TrePIXMTA", desc_TrePIXMTA);
  ("TrePIXQLA", desc_TrePIXQLA);
  ("TreRPC00B", desc_TreRPC00B);
  ("TreRPC00A", desc_TreRPC00A);
  ("TreRSMAPA", desc_TreRSMAPA);
  ("TreRSMAPB", desc_TreRSMAPB);
  ("TreRSMDCA", desc_TreRSMDCA);
  ("TreRSMECB", desc_TreRSMECB);
  ("TreRSMGGA", desc_TreRSMGGA);
  ("TreRSMGIA", desc_TreRSMGIA);
  ("TreRSMIDA", desc_TreRSMIDA);
  ("TreRSMPCA", desc_TreRSMPCA);
  ("TreRSMPIA", desc_TreRSMPIA);
  ("TreSENSRB", desc_TreSENSRB);
  ("TreTMINTA", desc_TreTMINTA)
].
