(** Field tables of pynitf, generated from the python sources by tools/gen_desc.py
    (TREs, first part).  Each row cites the line it was translated from. *)
From Verif Require Import Base Engine.
Open Scope string_scope.

(** pynitf/nitf_tre_bandsb.py, class TreBANDSB (line 125), table at line 22. *)
Definition desc_TreBANDSB : list row := [
  (* pynitf/nitf_tre_bandsb.py:22 *) RField (Build_fdesc (Some "count") (SzInt 5%Z) TInt FrNone DfNone None false 32%N false None 0%Z false);
  (* pynitf/nitf_tre_bandsb.py:23 *) RField (Build_fdesc (Some "radiometric_quantity") (SzInt 24%Z) TStr FrNone DfNone None false 32%N false None 0%Z false);
  (* pynitf/nitf_tre_bandsb.py:24 *) RField (Build_fdesc (Some "radiometric_quantity_unit") (SzInt 1%Z) TStr FrNone DfNone None false 32%N false None 0%Z false);
  (* pynitf/nitf_tre_bandsb.py:25 *) RField (Build_fdesc (Some "cube_scale_factor") (SzInt 4%Z) (TData KFloat) FrNone DfNone None false 32%N false None 0%Z true);
  (* pynitf/nitf_tre_bandsb.py:26 *) RField (Build_fdesc (Some "cube_additive_factor") (SzInt 4%Z) (TData KFloat) FrNone DfNone None false 32%N false None 0%Z true);
  (* pynitf/nitf_tre_bandsb.py:27 *) RField (Build_fdesc (Some "row_gsd_nrs") (SzInt 7%Z) TStr FrNone DfNone None false 32%N false None 0%Z false);
  (* pynitf/nitf_tre_bandsb.py:30 *) RField (Build_fdesc (Some "row_gsd_nrs_unit") (SzInt 1%Z) TStr FrNone DfNone None false 32%N false None 0%Z false);
  (* pynitf/nitf_tre_bandsb.py:31 *) RField (Build_fdesc (Some "col_gsd_ncs") (SzInt 7%Z) TStr FrNone DfNone None false 32%N false None 0%Z false);
  (* pynitf/nitf_tre_bandsb.py:32 *) RField (Build_fdesc (Some "col_gsd_ncs_unit") (SzInt 1%Z) TStr FrNone DfNone None false 32%N false None 0%Z false);
  (* pynitf/nitf_tre_bandsb.py:33 *) RField (Build_fdesc (Some "spt_resp_row_nom") (SzInt 7%Z) TStr FrNone DfNone None false 32%N false None 0%Z false);
  (* pynitf/nitf_tre_bandsb.py:34 *) RField (Build_fdesc (Some "spt_resp_unit_row_nom") (SzInt 1%Z) TStr FrNone DfNone None false 32%N false None 0%Z false);
  (* pynitf/nitf_tre_bandsb.py:35 *) RField (Build_fdesc (Some "spt_resp_col_nom") (SzInt 7%Z) TStr FrNone DfNone None false 32%N false None 0%Z false);
  (* pynitf/nitf_tre_bandsb.py:36 *) RField (Build_fdesc (Some "spt_resp_unit_col_nom") (SzInt 1%Z) TStr FrNone DfNone None false 32%N false None 0%Z false);
  (* pynitf/nitf_tre_bandsb.py:37 *) RField (Build_fdesc (Some "data_fld_1") (SzInt 48%Z) (TData KBytes) FrNone DfNone None false 32%N false None 0%Z true);
  (* pynitf/nitf_tre_bandsb.py:38 *) RField (Build_fdesc (Some "existence_mask") (SzInt 4%Z) (TData (KInt false)) FrNone DfNone None false 32%N false None 0%Z true);
  (* pynitf/nitf_tre_bandsb.py:39 *) RField (Build_fdesc (Some "radiometric_adjustment_surface") (SzInt 24%Z) TStr FrNone DfNone (Some (EBitAnd (EFld "existence_mask" 0) (EInt 2147483648%Z))) false 32%N false None 0%Z false);
  (* pynitf/nitf_tre_bandsb.py:40 *) RField (Build_fdesc (Some "atmospheric_adjustment_altitude") (SzInt 4%Z) (TData KFloat) FrNone DfNone (Some (EBitAnd (EFld "existence_mask" 0) (EInt 2147483648%Z))) false 32%N false None 0%Z true);
  (* pynitf/nitf_tre_bandsb.py:42 *) RField (Build_fdesc (Some "diameter") (SzInt 7%Z) TFloat (FrF (FsPct false true false 7 2 false false)) DfNone (Some (EBitAnd (EFld "existence_mask" 0) (EInt 1073741824%Z))) false 32%N false None 0%Z false);
  (* pynitf/nitf_tre_bandsb.py:43 *) RField (Build_fdesc (Some "data_fld_2") (SzInt 32%Z) (TData KBytes) FrNone DfNone (Some (EBitAnd (EFld "existence_mask" 0) (EInt 536870912%Z))) false 32%N false None 0%Z true);
  (* pynitf/nitf_tre_bandsb.py:45 *) RField (Build_fdesc (Some "wave_length_unit") (SzInt 1%Z) TStr FrNone DfNone (Some (EBitAnd (EFld "existence_mask" 0) (EInt 33030144%Z))) false 32%N false None 0%Z false);
  (* pynitf/nitf_tre_bandsb.py:46 *)
  RLoop (EFld "count" 0) [
    (* pynitf/nitf_tre_bandsb.py:48 *) RField (Build_fdesc (Some "bandid") (SzInt 50%Z) TStr FrNone DfNone (Some (EBitAnd (EFld "existence_mask" 0) (EInt 268435456%Z))) false 32%N false None 0%Z false);
    (* pynitf/nitf_tre_bandsb.py:49 *) RField (Build_fdesc (Some "bad_band") (SzInt 1%Z) TInt FrNone DfNone (Some (EBitAnd (EFld "existence_mask" 0) (EInt 134217728%Z))) false 32%N false None 0%Z false);
    (* pynitf/nitf_tre_bandsb.py:50 *) RField (Build_fdesc (Some "niirs") (SzInt 3%Z) TFloat FrNone DfNone (Some (EBitAnd (EFld "existence_mask" 0) (EInt 67108864%Z))) false 32%N false None 0%Z false);
    (* pynitf/nitf_tre_bandsb.py:51 *) RField (Build_fdesc (Some "focal_len") (SzInt 5%Z) TInt FrNone DfNone (Some (EBitAnd (EFld "existence_mask" 0) (EInt 33554432%Z))) false 32%N false None 0%Z false);
    (* pynitf/nitf_tre_bandsb.py:52 *) RField (Build_fdesc (Some "cwave") (SzInt 7%Z) TFloat FrNone DfNone (Some (EBitAnd (EFld "existence_mask" 0) (EInt 16777216%Z))) false 32%N false None 0%Z false);
    (* pynitf/nitf_tre_bandsb.py:53 *) RField (Build_fdesc (Some "fwhm") (SzInt 7%Z) TFloat FrNone DfNone (Some (EBitAnd (EFld "existence_mask" 0) (EInt 8388608%Z))) false 32%N false None 0%Z false);
    (* pynitf/nitf_tre_bandsb.py:54 *) RField (Build_fdesc (Some "fwhm_unc") (SzInt 7%Z) TFloat FrNone DfNone (Some (EBitAnd (EFld "existence_mask" 0) (EInt 4194304%Z))) false 32%N false None 0%Z false);
    (* pynitf/nitf_tre_bandsb.py:55 *) RField (Build_fdesc (Some "nom_wave") (SzInt 7%Z) TFloat FrNone DfNone (Some (EBitAnd (EFld "existence_mask" 0) (EInt 2097152%Z))) false 32%N false None 0%Z false);
    (* pynitf/nitf_tre_bandsb.py:56 *) RField (Build_fdesc (Some "nom_wave_unc") (SzInt 7%Z) TFloat FrNone DfNone (Some (EBitAnd (EFld "existence_mask" 0) (EInt 1048576%Z))) false 32%N false None 0%Z false);
    (* pynitf/nitf_tre_bandsb.py:58 *) RField (Build_fdesc (Some "lbound") (SzInt 7%Z) TFloat FrNone DfNone (Some (EBitAnd (EFld "existence_mask" 0) (EInt 524288%Z))) false 32%N false None 0%Z false);
    (* pynitf/nitf_tre_bandsb.py:59 *) RField (Build_fdesc (Some "ubound") (SzInt 7%Z) TFloat FrNone DfNone (Some (EBitAnd (EFld "existence_mask" 0) (EInt 524288%Z))) false 32%N false None 0%Z false);
    (* pynitf/nitf_tre_bandsb.py:60 *) RField (Build_fdesc (Some "scale_factor") (SzInt 4%Z) (TData KFloat) FrNone DfNone (Some (EBitAnd (EFld "existence_mask" 0) (EInt 262144%Z))) false 32%N false None 0%Z true);
    (* pynitf/nitf_tre_bandsb.py:62 *) RField (Build_fdesc (Some "additive_factor") (SzInt 4%Z) (TData KFloat) FrNone DfNone (Some (EBitAnd (EFld "existence_mask" 0) (EInt 262144%Z))) false 32%N false None 0%Z true);
    (* pynitf/nitf_tre_bandsb.py:64 *) RField (Build_fdesc (Some "start_time") (SzInt 16%Z) TStr FrNone DfNone (Some (EBitAnd (EFld "existence_mask" 0) (EInt 131072%Z))) false 32%N false None 0%Z false);
    (* pynitf/nitf_tre_bandsb.py:65 *) RField (Build_fdesc (Some "int_time") (SzInt 6%Z) TInt FrNone DfNone (Some (EBitAnd (EFld "existence_mask" 0) (EInt 65536%Z))) false 32%N false None 0%Z false);
    (* pynitf/nitf_tre_bandsb.py:66 *) RField (Build_fdesc (Some "caldrk") (SzInt 6%Z) TFloat FrNone DfNone (Some (EBitAnd (EFld "existence_mask" 0) (EInt 32768%Z))) false 32%N false None 0%Z false);
    (* pynitf/nitf_tre_bandsb.py:67 *) RField (Build_fdesc (Some "calibration_sensitivity") (SzInt 5%Z) TFloat FrNone DfNone (Some (EBitAnd (EFld "existence_mask" 0) (EInt 32768%Z))) false 32%N false None 0%Z false);
    (* pynitf/nitf_tre_bandsb.py:69 *) RField (Build_fdesc (Some "row_gsd") (SzInt 7%Z) TFloat FrNone DfNone (Some (EBitAnd (EFld "existence_mask" 0) (EInt 16384%Z))) false 32%N false None 0%Z false);
    (* pynitf/nitf_tre_bandsb.py:71 *) RField (Build_fdesc (Some "row_gsd_unc") (SzInt 7%Z) TFloat FrNone DfNone (Some (EBitAnd (EFld "existence_mask" 0) (EInt 8192%Z))) false 32%N false None 0%Z false);
    (* pynitf/nitf_tre_bandsb.py:73 *) RField (Build_fdesc (Some "row_gsd_unit") (SzInt 1%Z) TStr FrNone DfNone (Some (EBitAnd (EFld "existence_mask" 0) (EInt 16384%Z))) false 32%N false None 0%Z false);
    (* pynitf/nitf_tre_bandsb.py:75 *) RField (Build_fdesc (Some "col_gsd") (SzInt 7%Z) TFloat FrNone DfNone (Some (EBitAnd (EFld "existence_mask" 0) (EInt 16384%Z))) false 32%N false None 0%Z false);
    (* pynitf/nitf_tre_bandsb.py:77 *) RField (Build_fdesc (Some "col_gsd_unc") (SzInt 7%Z) TFloat FrNone DfNone (Some (EBitAnd (EFld "existence_mask" 0) (EInt 8192%Z))) false 32%N false None 0%Z false);
    (* pynitf/nitf_tre_bandsb.py:79 *) RField (Build_fdesc (Some "col_gsd_unit") (SzInt 1%Z) TStr FrNone DfNone (Some (EBitAnd (EFld "existence_mask" 0) (EInt 16384%Z))) false 32%N false None 0%Z false);
    (* pynitf/nitf_tre_bandsb.py:81 *) RField (Build_fdesc (Some "bknoise") (SzInt 5%Z) TFloat FrNone DfNone (Some (EBitAnd (EFld "existence_mask" 0) (EInt 4096%Z))) false 32%N false None 0%Z false);
    (* pynitf/nitf_tre_bandsb.py:82 *) RField (Build_fdesc (Some "scnnoise") (SzInt 5%Z) TFloat FrNone DfNone (Some (EBitAnd (EFld "existence_mask" 0) (EInt 4096%Z))) false 32%N false None 0%Z false);
    (* pynitf/nitf_tre_bandsb.py:83 *) RField (Build_fdesc (Some "spt_resp_function_row") (SzInt 7%Z) TFloat FrNone DfNone (Some (EBitAnd (EFld "existence_mask" 0) (EInt 2048%Z))) false 32%N false None 0%Z false);
    (* pynitf/nitf_tre_bandsb.py:85 *) RField (Build_fdesc (Some "spt_resp_unc_row") (SzInt 7%Z) TFloat FrNone DfNone (Some (EBitAnd (EFld "existence_mask" 0) (EInt 1024%Z))) false 32%N false None 0%Z false);
    (* pynitf/nitf_tre_bandsb.py:87 *) RField (Build_fdesc (Some "spt_resp_unit_row") (SzInt 1%Z) TStr FrNone DfNone (Some (EBitAnd (EFld "existence_mask" 0) (EInt 2048%Z))) false 32%N false None 0%Z false);
    (* pynitf/nitf_tre_bandsb.py:89 *) RField (Build_fdesc (Some "spt_resp_function_col") (SzInt 7%Z) TFloat FrNone DfNone (Some (EBitAnd (EFld "existence_mask" 0) (EInt 2048%Z))) false 32%N false None 0%Z false);
    (* pynitf/nitf_tre_bandsb.py:91 *) RField (Build_fdesc (Some "spt_resp_unc_col") (SzInt 7%Z) TFloat FrNone DfNone (Some (EBitAnd (EFld "existence_mask" 0) (EInt 1024%Z))) false 32%N false None 0%Z false);
    (* pynitf/nitf_tre_bandsb.py:93 *) RField (Build_fdesc (Some "spt_resp_unit_col") (SzInt 1%Z) TStr FrNone DfNone (Some (EBitAnd (EFld "existence_mask" 0) (EInt 2048%Z))) false 32%N false None 0%Z false);
    (* pynitf/nitf_tre_bandsb.py:95 *) RField (Build_fdesc (Some "data_fld_3") (SzInt 16%Z) (TData KBytes) FrNone DfNone (Some (EBitAnd (EFld "existence_mask" 0) (EInt 512%Z))) false 32%N false None 0%Z true);
    (* pynitf/nitf_tre_bandsb.py:97 *) RField (Build_fdesc (Some "data_fld_4") (SzInt 24%Z) (TData KBytes) FrNone DfNone (Some (EBitAnd (EFld "existence_mask" 0) (EInt 256%Z))) false 32%N false None 0%Z true);
    (* pynitf/nitf_tre_bandsb.py:99 *) RField (Build_fdesc (Some "data_fld_5") (SzInt 32%Z) (TData KBytes) FrNone DfNone (Some (EBitAnd (EFld "existence_mask" 0) (EInt 128%Z))) false 32%N false None 0%Z true);
    (* pynitf/nitf_tre_bandsb.py:101 *) RField (Build_fdesc (Some "data_fld_6") (SzInt 48%Z) (TData KBytes) FrNone DfNone (Some (EBitAnd (EFld "existence_mask" 0) (EInt 64%Z))) false 32%N false None 0%Z true)];
  (* pynitf/nitf_tre_bandsb.py:104 *) RField (Build_fdesc (Some "num_aux_b") (SzInt 2%Z) TInt FrNone DfNone (Some (EBitAnd (EFld "existence_mask" 0) (EInt 1%Z))) false 32%N false None 0%Z false);
  (* pynitf/nitf_tre_bandsb.py:105 *) RField (Build_fdesc (Some "num_aux_c") (SzInt 2%Z) TInt FrNone DfNone (Some (EBitAnd (EFld "existence_mask" 0) (EInt 1%Z))) false 32%N false None 0%Z false);
  (* pynitf/nitf_tre_bandsb.py:106 *)
  RLoop (EIf (EBitAnd (EFld "existence_mask" 0) (EInt 1%Z)) (EFld "num_aux_b" 0) (EInt 0%Z)) [
    (* pynitf/nitf_tre_bandsb.py:107 *) RField (Build_fdesc (Some "bapf") (SzInt 1%Z) TStr FrNone DfNone (Some (EBitAnd (EFld "existence_mask" 0) (EInt 1%Z))) false 32%N false None 0%Z false);
    (* pynitf/nitf_tre_bandsb.py:108 *) RField (Build_fdesc (Some "ubap") (SzInt 7%Z) TStr FrNone DfNone (Some (EBitAnd (EFld "existence_mask" 0) (EInt 1%Z))) false 32%N false None 0%Z false);
    (* pynitf/nitf_tre_bandsb.py:109 *)
    RLoop (EIf (EBitAnd (EFld "existence_mask" 0) (EInt 1%Z)) (EFld "count" 0) (EInt 0%Z)) [
      (* pynitf/nitf_tre_bandsb.py:110 *) RField (Build_fdesc (Some "apn_band") (SzInt 10%Z) TInt FrNone DfNone (Some (ECmp CEq (EFld "bapf" 1) (EStr (str "I")))) false 32%N false None 0%Z false);
      (* pynitf/nitf_tre_bandsb.py:111 *) RField (Build_fdesc (Some "apr_band") (SzInt 4%Z) (TData KFloat) FrNone DfNone (Some (ECmp CEq (EFld "bapf" 1) (EStr (str "R")))) false 32%N false None 0%Z true);
      (* pynitf/nitf_tre_bandsb.py:112 *) RField (Build_fdesc (Some "apa_band") (SzInt 20%Z) TInt FrNone DfNone (Some (ECmp CEq (EFld "bapf" 1) (EStr (str "A")))) false 32%N false None 0%Z false)]];
  (* pynitf/nitf_tre_bandsb.py:115 *)
  RLoop (EFld "num_aux_c" 0) [
    (* pynitf/nitf_tre_bandsb.py:116 *) RField (Build_fdesc (Some "capf") (SzInt 1%Z) TStr FrNone DfNone None false 32%N false None 0%Z false);
    (* pynitf/nitf_tre_bandsb.py:117 *) RField (Build_fdesc (Some "ucap") (SzInt 7%Z) TStr FrNone DfNone None false 32%N false None 0%Z false);
    (* pynitf/nitf_tre_bandsb.py:118 *) RField (Build_fdesc (Some "apn_cube") (SzInt 10%Z) TInt FrNone DfNone (Some (ECmp CEq (EFld "capf" 1) (EStr (str "I")))) false 32%N false None 0%Z false);
    (* pynitf/nitf_tre_bandsb.py:119 *) RField (Build_fdesc (Some "apr_cube") (SzInt 4%Z) (TData KFloat) FrNone DfNone (Some (ECmp CEq (EFld "capf" 1) (EStr (str "R")))) false 32%N false None 0%Z true);
    (* pynitf/nitf_tre_bandsb.py:121 *) RField (Build_fdesc (Some "apa_cube") (SzInt 20%Z) TInt FrNone DfNone (Some (ECmp CEq (EFld "capf" 1) (EStr (str "A")))) false 32%N false None 0%Z false)]
].

(** pynitf/nitf_tre_camsda.py, class TreCAMSDA (line 30), table at line 12. *)
Definition desc_TreCAMSDA : list row := [
  (* pynitf/nitf_tre_camsda.py:12 *) RField (Build_fdesc (Some "num_camera_sets") (SzInt 3%Z) TInt FrNone DfNone None false 32%N false None 0%Z false);
  (* pynitf/nitf_tre_camsda.py:13 *) RField (Build_fdesc (Some "num_camera_sets_in_tre") (SzInt 3%Z) TInt FrNone DfNone None false 32%N false None 0%Z false);
  (* pynitf/nitf_tre_camsda.py:14 *) RField (Build_fdesc (Some "first_camera_set_in_tre") (SzInt 3%Z) TInt FrNone DfNone None false 32%N false None 0%Z false);
  (* pynitf/nitf_tre_camsda.py:15 *)
  RLoop (EFld "num_camera_sets_in_tre" 0) [
    (* pynitf/nitf_tre_camsda.py:16 *) RField (Build_fdesc (Some "num_cameras_in_set") (SzInt 3%Z) TInt FrNone DfNone None false 32%N false None 0%Z false);
    (* pynitf/nitf_tre_camsda.py:17 *)
    RLoop (EFld "num_cameras_in_set" 1) [
      (* pynitf/nitf_tre_camsda.py:18 *) RField (Build_fdesc (Some "camera_id") (SzInt 36%Z) TStr FrNone DfNone None false 32%N false None 0%Z false);
      (* pynitf/nitf_tre_camsda.py:19 *) RField (Build_fdesc (Some "camera_desc") (SzInt 80%Z) TStr FrNone DfNone None false 32%N false None 0%Z false);
      (* pynitf/nitf_tre_camsda.py:20 *) RField (Build_fdesc (Some "layer_id") (SzInt 36%Z) TStr FrNone DfNone None false 32%N false None 0%Z false);
      (* pynitf/nitf_tre_camsda.py:21 *) RField (Build_fdesc (Some "idlvl") (SzInt 3%Z) TInt FrNone DfNone None false 32%N false None 0%Z false);
      (* pynitf/nitf_tre_camsda.py:22 *) RField (Build_fdesc (Some "ialvl") (SzInt 3%Z) TInt FrNone DfNone None false 32%N false None 0%Z false);
      (* pynitf/nitf_tre_camsda.py:23 *) RField (Build_fdesc (Some "iloc") (SzInt 10%Z) TStr FrNone (DfStr (str "0000000000")) None false 32%N false None 0%Z false);
      (* pynitf/nitf_tre_camsda.py:24 *) RField (Build_fdesc (Some "nrows") (SzInt 8%Z) TInt FrNone DfNone None false 32%N false None 0%Z false);
      (* pynitf/nitf_tre_camsda.py:25 *) RField (Build_fdesc (Some "ncols") (SzInt 8%Z) TInt FrNone DfNone None false 32%N false None 0%Z false)]]
].

(** pynitf/nitf_tre_cscrna.py, class TreCSCRNA (line 35), table at line 19. *)
Definition desc_TreCSCRNA : list row := [
  (* pynitf/nitf_tre_cscrna.py:19 *) RField (Build_fdesc (Some "predict_corners") (SzInt 1%Z) TStr FrNone DfNone None false 32%N false None 0%Z false);
  (* pynitf/nitf_tre_cscrna.py:20 *) RField (Build_fdesc (Some "ulcnr_lat") (SzInt 9%Z) TFloat (FrF (FsPct true true false 9 5 false false)) DfNone None false 32%N false None 0%Z false);
  (* pynitf/nitf_tre_cscrna.py:21 *) RField (Build_fdesc (Some "ulcnr_long") (SzInt 10%Z) TFloat (FrF (FsPct true true false 10 5 false false)) DfNone None false 32%N false None 0%Z false);
  (* pynitf/nitf_tre_cscrna.py:22 *) RField (Build_fdesc (Some "ulcnr_ht") (SzInt 8%Z) TFloat (FrF (FsPct true true false 8 1 false false)) DfNone None false 32%N false None 0%Z false);
  (* pynitf/nitf_tre_cscrna.py:23 *) RField (Build_fdesc (Some "urcnr_lat") (SzInt 9%Z) TFloat (FrF (FsPct true true false 9 5 false false)) DfNone None false 32%N false None 0%Z false);
  (* pynitf/nitf_tre_cscrna.py:24 *) RField (Build_fdesc (Some "urcnr_long") (SzInt 10%Z) TFloat (FrF (FsPct true true false 10 5 false false)) DfNone None false 32%N false None 0%Z false);
  (* pynitf/nitf_tre_cscrna.py:25 *) RField (Build_fdesc (Some "urcnr_ht") (SzInt 8%Z) TFloat (FrF (FsPct true true false 8 1 false false)) DfNone None false 32%N false None 0%Z false);
  (* pynitf/nitf_tre_cscrna.py:26 *) RField (Build_fdesc (Some "lrcnr_lat") (SzInt 9%Z) TFloat (FrF (FsPct true true false 9 5 false false)) DfNone None false 32%N false None 0%Z false);
  (* pynitf/nitf_tre_cscrna.py:27 *) RField (Build_fdesc (Some "lrcnr_long") (SzInt 10%Z) TFloat (FrF (FsPct true true false 10 5 false false)) DfNone None false 32%N false None 0%Z false);
  (* pynitf/nitf_tre_cscrna.py:28 *) RField (Build_fdesc (Some "lrcnr_ht") (SzInt 8%Z) TFloat (FrF (FsPct true true false 8 1 false false)) DfNone None false 32%N false None 0%Z false);
  (* pynitf/nitf_tre_cscrna.py:29 *) RField (Build_fdesc (Some "llcnr_lat") (SzInt 9%Z) TFloat (FrF (FsPct true true false 9 5 false false)) DfNone None false 32%N false None 0%Z false);
  (* pynitf/nitf_tre_cscrna.py:30 *) RField (Build_fdesc (Some "llcnr_long") (SzInt 10%Z) TFloat (FrF (FsPct true true false 10 5 false false)) DfNone None false 32%N false None 0%Z false);
  (* pynitf/nitf_tre_cscrna.py:31 *) RField (Build_fdesc (Some "llcnr_ht") (SzInt 8%Z) TFloat (FrF (FsPct true true false 8 1 false false)) DfNone None false 32%N false None 0%Z false)
].

(** pynitf/nitf_tre_csde.py, class TreSTDIDC (line 37), table at line 17. *)
Definition desc_TreSTDIDC : list row := [
  (* pynitf/nitf_tre_csde.py:17 *) RField (Build_fdesc (Some "acquisition_date") (SzInt 14%Z) TStr FrNone DfNone None false 32%N false None 0%Z false);
  (* pynitf/nitf_tre_csde.py:18 *) RField (Build_fdesc (Some "mission") (SzInt 14%Z) TStr FrNone DfNone None false 32%N false None 0%Z false);
  (* pynitf/nitf_tre_csde.py:19 *) RField (Build_fdesc (Some "pass_") (SzInt 2%Z) TStr FrNone DfNone None false 32%N false None 0%Z false);
  (* pynitf/nitf_tre_csde.py:20 *) RField (Build_fdesc (Some "op_num") (SzInt 3%Z) TInt FrNone DfNone None false 32%N false None 0%Z false);
  (* pynitf/nitf_tre_csde.py:21 *) RField (Build_fdesc (Some "start_segment") (SzInt 2%Z) TStr FrNone DfNone None false 32%N false None 0%Z false);
  (* pynitf/nitf_tre_csde.py:22 *) RField (Build_fdesc (Some "repro_num") (SzInt 2%Z) TInt FrNone DfNone None false 32%N false None 0%Z false);
  (* pynitf/nitf_tre_csde.py:23 *) RField (Build_fdesc (Some "replay_regen") (SzInt 3%Z) TStr FrNone DfNone None false 32%N false None 0%Z false);
  (* pynitf/nitf_tre_csde.py:24 *) RField (Build_fdesc (Some "blank_fill") (SzInt 1%Z) TStr FrNone DfNone None false 32%N false None 0%Z false);
  (* pynitf/nitf_tre_csde.py:25 *) RField (Build_fdesc (Some "start_column") (SzInt 3%Z) TInt FrNone DfNone None false 32%N false None 0%Z false);
  (* pynitf/nitf_tre_csde.py:26 *) RField (Build_fdesc (Some "start_row") (SzInt 5%Z) TInt FrNone DfNone None false 32%N false None 0%Z false);
  (* pynitf/nitf_tre_csde.py:27 *) RField (Build_fdesc (Some "end_segment") (SzInt 2%Z) TStr FrNone DfNone None false 32%N false None 0%Z false);
  (* pynitf/nitf_tre_csde.py:28 *) RField (Build_fdesc (Some "end_column") (SzInt 3%Z) TInt FrNone DfNone None false 32%N false None 0%Z false);
  (* pynitf/nitf_tre_csde.py:29 *) RField (Build_fdesc (Some "end_row") (SzInt 5%Z) TInt FrNone DfNone None false 32%N false None 0%Z false);
  (* pynitf/nitf_tre_csde.py:30 *) RField (Build_fdesc (Some "country") (SzInt 2%Z) TStr FrNone DfNone None true 32%N false None 0%Z false);
  (* pynitf/nitf_tre_csde.py:31 *) RField (Build_fdesc (Some "wac") (SzInt 4%Z) TInt FrNone DfNone None true 32%N false None 0%Z false);
  (* pynitf/nitf_tre_csde.py:32 *) RField (Build_fdesc (Some "location") (SzInt 11%Z) TStr FrNone DfNone None false 32%N false None 0%Z false);
  (* pynitf/nitf_tre_csde.py:33 *) RField (Build_fdesc None (SzInt 5%Z) TStr FrNone DfNone None false 32%N false None 0%Z false);
  (* pynitf/nitf_tre_csde.py:34 *) RField (Build_fdesc None (SzInt 8%Z) TStr FrNone DfNone None false 32%N false None 0%Z false)
].

(** pynitf/nitf_tre_csde.py, class TreUSE00A (line 89), table at line 61. *)
Definition desc_TreUSE00A : list row := [
  (* pynitf/nitf_tre_csde.py:61 *) RField (Build_fdesc (Some "angle_to_north") (SzInt 3%Z) TInt FrNone DfNone None false 32%N false None 0%Z false);
  (* pynitf/nitf_tre_csde.py:62 *) RField (Build_fdesc (Some "mean_gsd") (SzInt 5%Z) TFloat (FrF (FsPct false true false 5 1 false false)) DfNone None false 32%N false None 0%Z false);
  (* pynitf/nitf_tre_csde.py:63 *) RField (Build_fdesc None (SzInt 1%Z) TStr FrNone DfNone None false 32%N false None 0%Z false);
  (* pynitf/nitf_tre_csde.py:64 *) RField (Build_fdesc (Some "dynamic_range") (SzInt 5%Z) TInt FrNone DfNone None true 32%N false None 0%Z false);
  (* pynitf/nitf_tre_csde.py:65 *) RField (Build_fdesc None (SzInt 3%Z) TStr FrNone DfNone None false 32%N false None 0%Z false);
  (* pynitf/nitf_tre_csde.py:66 *) RField (Build_fdesc None (SzInt 1%Z) TStr FrNone DfNone None false 32%N false None 0%Z false);
  (* pynitf/nitf_tre_csde.py:67 *) RField (Build_fdesc None (SzInt 3%Z) TStr FrNone DfNone None false 32%N false None 0%Z false);
  (* pynitf/nitf_tre_csde.py:68 *) RField (Build_fdesc (Some "obl_ang") (SzInt 5%Z) TFloat (FrF (FsPct false true false 5 2 false false)) DfNone None true 32%N false None 0%Z false);
  (* pynitf/nitf_tre_csde.py:70 *) RField (Build_fdesc (Some "roll_ang") (SzInt 6%Z) TFloat (FrF (FsPct true true false 4 2 false false)) DfNone None true 32%N false None 0%Z false);
  (* pynitf/nitf_tre_csde.py:72 *) RField (Build_fdesc None (SzInt 12%Z) TStr FrNone DfNone None false 32%N false None 0%Z false);
  (* pynitf/nitf_tre_csde.py:73 *) RField (Build_fdesc None (SzInt 15%Z) TStr FrNone DfNone None false 32%N false None 0%Z false);
  (* pynitf/nitf_tre_csde.py:74 *) RField (Build_fdesc None (SzInt 4%Z) TStr FrNone DfNone None false 32%N false None 0%Z false);
  (* pynitf/nitf_tre_csde.py:75 *) RField (Build_fdesc None (SzInt 1%Z) TStr FrNone DfNone None false 32%N false None 0%Z false);
  (* pynitf/nitf_tre_csde.py:76 *) RField (Build_fdesc None (SzInt 3%Z) TStr FrNone DfNone None false 32%N false None 0%Z false);
  (* pynitf/nitf_tre_csde.py:77 *) RField (Build_fdesc None (SzInt 1%Z) TStr FrNone DfNone None false 32%N false None 0%Z false);
  (* pynitf/nitf_tre_csde.py:78 *) RField (Build_fdesc None (SzInt 1%Z) TStr FrNone DfNone None false 32%N false None 0%Z false);
  (* pynitf/nitf_tre_csde.py:79 *) RField (Build_fdesc (Some "n_ref") (SzInt 2%Z) TInt FrNone DfNone None false 32%N false None 0%Z false);
  (* pynitf/nitf_tre_csde.py:80 *) RField (Build_fdesc (Some "rev_num") (SzInt 5%Z) TInt FrNone DfNone None false 32%N false None 0%Z false);
  (* pynitf/nitf_tre_csde.py:81 *) RField (Build_fdesc (Some "n_seg") (SzInt 3%Z) TInt FrNone DfNone None false 32%N false None 0%Z false);
  (* pynitf/nitf_tre_csde.py:82 *) RField (Build_fdesc (Some "max_lp_seg") (SzInt 6%Z) TInt FrNone DfNone None true 32%N false None 0%Z false);
  (* pynitf/nitf_tre_csde.py:83 *) RField (Build_fdesc None (SzInt 6%Z) TStr FrNone DfNone None false 32%N false None 0%Z false);
  (* pynitf/nitf_tre_csde.py:84 *) RField (Build_fdesc None (SzInt 6%Z) TStr FrNone DfNone None false 32%N false None 0%Z false);
  (* pynitf/nitf_tre_csde.py:85 *) RField (Build_fdesc (Some "sun_el") (SzInt 5%Z) TFloat (FrF (FsPct true true false 5 1 false false)) DfNone None false 32%N false None 0%Z false);
  (* pynitf/nitf_tre_csde.py:86 *) RField (Build_fdesc (Some "sun_az") (SzInt 5%Z) TFloat (FrF (FsPct false true false 5 1 false false)) DfNone None false 32%N false None 0%Z false)
].

(** pynitf/nitf_tre_csdida.py, class TreCSDIDA (line 32), table at line 13. *)
Definition desc_TreCSDIDA : list row := [
  (* pynitf/nitf_tre_csdida.py:13 *) RField (Build_fdesc (Some "day") (SzInt 2%Z) TInt FrNone DfNone None false 32%N false None 0%Z false);
  (* pynitf/nitf_tre_csdida.py:14 *) RField (Build_fdesc (Some "month") (SzInt 3%Z) TStr FrNone DfNone None false 32%N false None 0%Z false);
  (* pynitf/nitf_tre_csdida.py:15 *) RField (Build_fdesc (Some "year") (SzInt 4%Z) TInt FrNone DfNone None false 32%N false None 0%Z false);
  (* pynitf/nitf_tre_csdida.py:16 *) RField (Build_fdesc (Some "platform_code") (SzInt 2%Z) TStr FrNone DfNone None false 32%N false None 0%Z false);
  (* pynitf/nitf_tre_csdida.py:17 *) RField (Build_fdesc (Some "vehicle_id") (SzInt 2%Z) TInt FrNone DfNone None false 32%N false None 0%Z false);
  (* pynitf/nitf_tre_csdida.py:18 *) RField (Build_fdesc (Some "pass_") (SzInt 2%Z) TInt FrNone DfNone None false 32%N false None 0%Z false);
  (* pynitf/nitf_tre_csdida.py:19 *) RField (Build_fdesc (Some "operation") (SzInt 3%Z) TInt FrNone DfNone None false 32%N false None 0%Z false);
  (* pynitf/nitf_tre_csdida.py:20 *) RField (Build_fdesc (Some "sensor_id") (SzInt 2%Z) TStr FrNone DfNone None false 32%N false None 0%Z false);
  (* pynitf/nitf_tre_csdida.py:21 *) RField (Build_fdesc (Some "product_id") (SzInt 2%Z) TStr FrNone DfNone None false 32%N false None 0%Z false);
  (* pynitf/nitf_tre_csdida.py:22 *) RField (Build_fdesc (Some "reserved_1") (SzInt 4%Z) TStr FrNone (DfStr (str "0000")) None false 32%N false None 0%Z false);
  (* pynitf/nitf_tre_csdida.py:23 *) RField (Build_fdesc (Some "time") (SzInt 14%Z) TInt FrNone DfNone None false 32%N false None 0%Z false);
  (* pynitf/nitf_tre_csdida.py:24 *) RField (Build_fdesc (Some "process_time") (SzInt 14%Z) TInt FrNone DfNone None false 32%N false None 0%Z false);
  (* pynitf/nitf_tre_csdida.py:25 *) RField (Build_fdesc (Some "reserved_2") (SzInt 2%Z) TInt FrNone (DfInt 0%Z) None false 32%N false None 0%Z false);
  (* pynitf/nitf_tre_csdida.py:26 *) RField (Build_fdesc (Some "reserved_3") (SzInt 2%Z) TInt FrNone (DfInt 1%Z) None false 32%N false None 0%Z false);
  (* pynitf/nitf_tre_csdida.py:27 *) RField (Build_fdesc (Some "reserved_4") (SzInt 1%Z) TStr FrNone (DfStr (str "N")) None false 32%N false None 0%Z false);
  (* pynitf/nitf_tre_csdida.py:28 *) RField (Build_fdesc (Some "reserved_5") (SzInt 1%Z) TStr FrNone (DfStr (str "N")) None false 32%N false None 0%Z false);
  (* pynitf/nitf_tre_csdida.py:29 *) RField (Build_fdesc (Some "software_version_number") (SzInt 10%Z) TStr FrNone DfNone None false 32%N false None 0%Z false)
].

(** pynitf/nitf_tre_csepha.py, class TreCSEPHA (line 27), table at line 15. *)
Definition desc_TreCSEPHA : list row := [
  (* pynitf/nitf_tre_csepha.py:15 *) RField (Build_fdesc (Some "ephem_flag") (SzInt 12%Z) TStr FrNone DfNone None false 32%N false None 0%Z false);
  (* pynitf/nitf_tre_csepha.py:16 *) RField (Build_fdesc (Some "dt_ephem") (SzInt 5%Z) TFloat (FrF (FsPct false true false 3 1 false false)) DfNone None false 32%N false None 0%Z false);
  (* pynitf/nitf_tre_csepha.py:17 *) RField (Build_fdesc (Some "date_ephem") (SzInt 8%Z) TInt FrNone DfNone None false 32%N false None 0%Z false);
  (* pynitf/nitf_tre_csepha.py:18 *) RField (Build_fdesc (Some "t0_ephem") (SzInt 13%Z) TStr FrNone DfNone None false 32%N false None 0%Z false);
  (* pynitf/nitf_tre_csepha.py:19 *) RField (Build_fdesc (Some "num_ephem") (SzInt 3%Z) TInt FrNone DfNone None false 32%N false None 0%Z false);
  (* pynitf/nitf_tre_csepha.py:20 *)
  RLoop (EFld "num_ephem" 0) [
    (* pynitf/nitf_tre_csepha.py:21 *) RField (Build_fdesc (Some "ephem_x") (SzInt 12%Z) TFloat (FrF (FsPct true true false 12 2 false false)) DfNone None false 32%N false None 0%Z false);
    (* pynitf/nitf_tre_csepha.py:22 *) RField (Build_fdesc (Some "ephem_y") (SzInt 12%Z) TFloat (FrF (FsPct true true false 12 2 false false)) DfNone None false 32%N false None 0%Z false);
    (* pynitf/nitf_tre_csepha.py:23 *) RField (Build_fdesc (Some "ephem_z") (SzInt 12%Z) TFloat (FrF (FsPct true true false 12 2 false false)) DfNone None false 32%N false None 0%Z false)]
].

(** pynitf/nitf_tre_csexrb.py, class TreCSEXRB (line 133), table at line 32. *)
Definition desc_TreCSEXRB : list row := [
  (* pynitf/nitf_tre_csexrb.py:32 *) RField (Build_fdesc (Some "image_uuid") (SzInt 36%Z) TStr FrNone DfNone None false 32%N false None 0%Z false);
  (* pynitf/nitf_tre_csexrb.py:33 *) RField (Build_fdesc (Some "num_assoc_des") (SzInt 3%Z) TInt FrNone DfNone None false 32%N false None 0%Z false);
  (* pynitf/nitf_tre_csexrb.py:34 *)
  RLoop (EFld "num_assoc_des" 0) [
    (* pynitf/nitf_tre_csexrb.py:35 *) RField (Build_fdesc (Some "assoc_des_id") (SzInt 36%Z) TStr FrNone DfNone None false 32%N false None 0%Z false)];
  (* pynitf/nitf_tre_csexrb.py:37 *) RField (Build_fdesc (Some "platform_id") (SzInt 6%Z) TStr FrNone DfNone None false 32%N false None 0%Z false);
  (* pynitf/nitf_tre_csexrb.py:38 *) RField (Build_fdesc (Some "payload_id") (SzInt 6%Z) TStr FrNone DfNone None false 32%N false None 0%Z false);
  (* pynitf/nitf_tre_csexrb.py:39 *) RField (Build_fdesc (Some "sensor_id") (SzInt 6%Z) TStr FrNone DfNone None false 32%N false None 0%Z false);
  (* pynitf/nitf_tre_csexrb.py:40 *) RField (Build_fdesc (Some "sensor_type") (SzInt 1%Z) TStr FrNone DfNone None false 32%N false None 0%Z false);
  (* pynitf/nitf_tre_csexrb.py:41 *) RField (Build_fdesc (Some "ground_ref_point_x") (SzInt 12%Z) TFloat (FrF (FsPct true true false 12 2 false false)) DfNone None true 32%N false None 0%Z false);
  (* pynitf/nitf_tre_csexrb.py:43 *) RField (Build_fdesc (Some "ground_ref_point_y") (SzInt 12%Z) TFloat (FrF (FsPct true true false 12 2 false false)) DfNone None true 32%N false None 0%Z false);
  (* pynitf/nitf_tre_csexrb.py:45 *) RField (Build_fdesc (Some "ground_ref_point_z") (SzInt 12%Z) TFloat (FrF (FsPct true true false 12 2 false false)) DfNone None true 32%N false None 0%Z false);
  (* pynitf/nitf_tre_csexrb.py:47 *) RField (Build_fdesc (Some "day_first_line_image") (SzInt 8%Z) TStr FrNone DfNone (Some (EIn false (EFld "sensor_type" 0) [(EStr (str "S")); (EStr (str "P"))])) false 32%N false None 0%Z false);
  (* pynitf/nitf_tre_csexrb.py:49 *) RField (Build_fdesc (Some "time_first_line_image") (SzInt 15%Z) TFloat (FrF (FsPct false true false 15 9 false false)) DfNone (Some (EIn false (EFld "sensor_type" 0) [(EStr (str "S")); (EStr (str "P"))])) false 32%N false None 0%Z false);
  (* pynitf/nitf_tre_csexrb.py:51 *) RField (Build_fdesc (Some "time_image_duration") (SzInt 16%Z) TFloat (FrF (FsPct true true false 16 9 false false)) DfNone (Some (EIn false (EFld "sensor_type" 0) [(EStr (str "S")); (EStr (str "P"))])) false 32%N false None 0%Z false);
  (* pynitf/nitf_tre_csexrb.py:53 *) RField (Build_fdesc (Some "time_stamp_loc") (SzInt 1%Z) TInt FrNone DfNone (Some (ECmp CEq (EFld "sensor_type" 0) (EStr (str "F")))) false 32%N false None 0%Z false);
  (* pynitf/nitf_tre_csexrb.py:55 *) RField (Build_fdesc (Some "reference_frame_num") (SzInt 9%Z) TInt FrNone DfNone (Some (EAnd (ECmp CEq (EFld "sensor_type" 0) (EStr (str "F"))) (ECmp CEq (EFld "time_stamp_loc" 0) (EInt 0%Z)))) false 32%N false None 0%Z false);
  (* pynitf/nitf_tre_csexrb.py:57 *) RField (Build_fdesc (Some "base_timestamp") (SzInt 24%Z) TStr FrNone DfNone (Some (EAnd (ECmp CEq (EFld "sensor_type" 0) (EStr (str "F"))) (ECmp CEq (EFld "time_stamp_loc" 0) (EInt 0%Z)))) false 32%N false None 0%Z false);
  (* pynitf/nitf_tre_csexrb.py:59 *) RField (Build_fdesc (Some "dt_multiplier") (SzInt 8%Z) (TData (KInt false)) FrNone DfNone (Some (EAnd (ECmp CEq (EFld "sensor_type" 0) (EStr (str "F"))) (ECmp CEq (EFld "time_stamp_loc" 0) (EInt 0%Z)))) false 32%N false None 0%Z true);
  (* pynitf/nitf_tre_csexrb.py:63 *) RField (Build_fdesc (Some "dt_size") (SzInt 1%Z) (TData (KInt false)) FrNone DfNone (Some (EAnd (ECmp CEq (EFld "sensor_type" 0) (EStr (str "F"))) (ECmp CEq (EFld "time_stamp_loc" 0) (EInt 0%Z)))) false 32%N false None 0%Z true);
  (* pynitf/nitf_tre_csexrb.py:67 *) RField (Build_fdesc (Some "number_frames") (SzInt 4%Z) (TData (KInt false)) FrNone DfNone (Some (EAnd (ECmp CEq (EFld "sensor_type" 0) (EStr (str "F"))) (ECmp CEq (EFld "time_stamp_loc" 0) (EInt 0%Z)))) false 32%N false None 0%Z true);
  (* pynitf/nitf_tre_csexrb.py:71 *) RField (Build_fdesc (Some "number_dt") (SzInt 4%Z) (TData (KInt false)) FrNone DfNone (Some (EAnd (ECmp CEq (EFld "sensor_type" 0) (EStr (str "F"))) (ECmp CEq (EFld "time_stamp_loc" 0) (EInt 0%Z)))) false 32%N false None 0%Z true);
  (* pynitf/nitf_tre_csexrb.py:75 *)
  RLoop (EIf (EAnd (ECmp CEq (EFld "sensor_type" 0) (EStr (str "F"))) (ECmp CEq (EFld "time_stamp_loc" 0) (EInt 0%Z))) (EFld "number_dt" 0) (EInt 0%Z)) [
    (* pynitf/nitf_tre_csexrb.py:76 *) RField (Build_fdesc (Some "dt") (SzExpr (EFld "dt_size" 0)) (TData (KInt false)) FrNone DfNone None false 32%N false None 0%Z true)];
  (* pynitf/nitf_tre_csexrb.py:80 *) RField (Build_fdesc (Some "max_gsd") (SzInt 12%Z) TFloat (FrF (FsPct false true false 12 1 false false)) DfNone None true 32%N false None 0%Z false);
  (* pynitf/nitf_tre_csexrb.py:82 *) RField (Build_fdesc (Some "along_scan_gsd") (SzInt 12%Z) TFloat (FrF (FsPct false true false 12 1 false false)) DfNone None true 32%N false None 0%Z false);
  (* pynitf/nitf_tre_csexrb.py:84 *) RField (Build_fdesc (Some "cross_scan_gsd") (SzInt 12%Z) TFloat (FrF (FsPct false true false 12 1 false false)) DfNone None true 32%N false None 0%Z false);
  (* pynitf/nitf_tre_csexrb.py:86 *) RField (Build_fdesc (Some "geo_scan_gsd") (SzInt 12%Z) TFloat (FrF (FsPct false true false 12 1 false false)) DfNone None true 32%N false None 0%Z false);
  (* pynitf/nitf_tre_csexrb.py:88 *) RField (Build_fdesc (Some "a_s_vert_gsd") (SzInt 12%Z) TFloat (FrF (FsPct false true false 12 1 false false)) DfNone None true 32%N false None 0%Z false);
  (* pynitf/nitf_tre_csexrb.py:90 *) RField (Build_fdesc (Some "c_s_vert_gsd") (SzInt 12%Z) TFloat (FrF (FsPct false true false 12 1 false false)) DfNone None true 32%N false None 0%Z false);
  (* pynitf/nitf_tre_csexrb.py:92 *) RField (Build_fdesc (Some "geo_mean_vert_gsd") (SzInt 12%Z) TFloat (FrF (FsPct false true false 12 1 false false)) DfNone None true 32%N false None 0%Z false);
  (* pynitf/nitf_tre_csexrb.py:94 *) RField (Build_fdesc (Some "geo_beta_angle") (SzInt 5%Z) TFloat (FrF (FsPct false false false 5 1 false false)) DfNone None true 32%N false None 0%Z false);
  (* pynitf/nitf_tre_csexrb.py:96 *) RField (Build_fdesc (Some "dynamic_range") (SzInt 5%Z) TInt FrNone DfNone None true 32%N false None 0%Z false);
  (* pynitf/nitf_tre_csexrb.py:98 *) RField (Build_fdesc (Some "num_lines") (SzInt 7%Z) TInt FrNone DfNone None false 32%N false None 0%Z false);
  (* pynitf/nitf_tre_csexrb.py:100 *) RField (Build_fdesc (Some "num_samples") (SzInt 5%Z) TInt FrNone DfNone None false 32%N false None 0%Z false);
  (* pynitf/nitf_tre_csexrb.py:102 *) RField (Build_fdesc (Some "angle_to_north") (SzInt 7%Z) TFloat (FrF (FsPct false true false 7 3 false false)) DfNone None true 32%N false None 0%Z false);
  (* pynitf/nitf_tre_csexrb.py:104 *) RField (Build_fdesc (Some "obliquity_angle") (SzInt 6%Z) TFloat (FrF (FsPct false true false 6 3 false false)) DfNone None true 32%N false None 0%Z false);
  (* pynitf/nitf_tre_csexrb.py:106 *) RField (Build_fdesc (Some "az_of_obliquity") (SzInt 7%Z) TFloat (FrF (FsPct false true false 7 3 false false)) DfNone None true 32%N false None 0%Z false);
  (* pynitf/nitf_tre_csexrb.py:108 *) RField (Build_fdesc (Some "atm_refr_flag") (SzInt 1%Z) TInt FrNone (DfInt 1%Z) None false 32%N false None 0%Z false);
  (* pynitf/nitf_tre_csexrb.py:110 *) RField (Build_fdesc (Some "vel_aber_flag") (SzInt 1%Z) TInt FrNone (DfInt 1%Z) None false 32%N false None 0%Z false);
  (* pynitf/nitf_tre_csexrb.py:111 *) RField (Build_fdesc (Some "grd_cover") (SzInt 1%Z) TInt FrNone (DfInt 9%Z) None false 32%N false None 0%Z false);
  (* pynitf/nitf_tre_csexrb.py:112 *) RField (Build_fdesc (Some "snow_depth_category") (SzInt 1%Z) TInt FrNone (DfInt 9%Z) None false 32%N false None 0%Z false);
  (* pynitf/nitf_tre_csexrb.py:113 *) RField (Build_fdesc (Some "sun_azimuth") (SzInt 7%Z) TFloat (FrF (FsPct false false true 7 3 false false)) DfNone None true 32%N false None 0%Z false);
  (* pynitf/nitf_tre_csexrb.py:115 *) RField (Build_fdesc (Some "sun_elevation") (SzInt 7%Z) TFloat (FrF (FsPct false true false 7 3 false false)) DfNone None true 32%N false None 0%Z false);
  (* pynitf/nitf_tre_csexrb.py:117 *) RField (Build_fdesc (Some "predicted_niirs") (SzInt 3%Z) TFloat (FrF (FsPct false true false 2 1 false false)) DfNone None true 32%N false None 0%Z false);
  (* pynitf/nitf_tre_csexrb.py:120 *) RField (Build_fdesc (Some "circl_err") (SzInt 5%Z) TFloat (FrF (FsPct false true false 5 1 false false)) DfNone None true 32%N false None 0%Z false);
  (* pynitf/nitf_tre_csexrb.py:122 *) RField (Build_fdesc (Some "linear_err") (SzInt 5%Z) TFloat (FrF (FsPct false true false 5 1 false false)) DfNone None true 32%N false None 0%Z false);
  (* pynitf/nitf_tre_csexrb.py:124 *) RField (Build_fdesc (Some "cloud_cover") (SzInt 3%Z) TInt FrNone DfNone None true 32%N false None 0%Z false);
  (* pynitf/nitf_tre_csexrb.py:125 *) RField (Build_fdesc (Some "rolling_shutter_flag") (SzInt 1%Z) TInt FrNone DfNone (Some (ECmp CEq (EFld "sensor_type" 0) (EStr (str "F")))) true 32%N false None 0%Z false);
  (* pynitf/nitf_tre_csexrb.py:127 *) RField (Build_fdesc (Some "ue_time_flag") (SzInt 1%Z) TInt FrNone DfNone None true 32%N false None 0%Z false);
  (* pynitf/nitf_tre_csexrb.py:129 *) RField (Build_fdesc (Some "reserved_len") (SzInt 5%Z) TInt FrNone DfNone None false 32%N false None 0%Z false);
  (* pynitf/nitf_tre_csexrb.py:130 *) RField (Build_fdesc (Some "reserved") (SzExpr (EFld "reserved_len" 0)) (TData KBytes) FrNone DfNone None false 32%N false None 0%Z false)
].

(** pynitf/nitf_tre_engrda.py, class TreENGRDA (line 124), table at line 104. *)
Definition desc_TreENGRDA : list row := [
  (* pynitf/nitf_tre_engrda.py:104 *) RField (Build_fdesc (Some "resrc") (SzInt 20%Z) TStr FrNone DfNone None false 32%N false None 0%Z false);
  (* pynitf/nitf_tre_engrda.py:105 *) RField (Build_fdesc (Some "recnt") (SzInt 3%Z) TInt FrNone DfNone None false 32%N false None 0%Z false);
  (* pynitf/nitf_tre_engrda.py:106 *)
  RLoop (EFld "recnt" 0) [
    (* pynitf/nitf_tre_engrda.py:107 *) RField (Build_fdesc (Some "engln") (SzInt 2%Z) TInt FrNone DfNone None false 32%N false None 0%Z false);
    (* pynitf/nitf_tre_engrda.py:108 *) RField (Build_fdesc (Some "englbl") (SzExpr (EFld "engln" 1)) (TData KString) FrNone DfNone None false 32%N false None 0%Z false);
    (* pynitf/nitf_tre_engrda.py:110 *) RField (Build_fdesc (Some "engmtxc") (SzInt 4%Z) TInt FrNone DfNone None false 32%N false None 0%Z false);
    (* pynitf/nitf_tre_engrda.py:111 *) RField (Build_fdesc (Some "engmtxr") (SzInt 4%Z) TInt FrNone DfNone None false 32%N false None 0%Z false);
    (* pynitf/nitf_tre_engrda.py:112 *) RField (Build_fdesc (Some "engtyp") (SzInt 1%Z) TStr FrNone DfNone None false 32%N false None 0%Z false);
    (* pynitf/nitf_tre_engrda.py:113 *) RField (Build_fdesc (Some "engdts") (SzInt 1%Z) TInt FrNone DfNone None false 32%N false None 0%Z false);
    (* pynitf/nitf_tre_engrda.py:114 *) RField (Build_fdesc (Some "engdatu") (SzInt 2%Z) TStr FrNone DfNone None false 32%N false None 0%Z false);
    (* pynitf/nitf_tre_engrda.py:117 *) RField (Build_fdesc (Some "engdatc") (SzInt 8%Z) TInt FrNone DfNone None false 32%N false (Some (EMul (EFld "engmtxc" 1) (EFld "engmtxr" 1))) 0%Z false);
    (* pynitf/nitf_tre_engrda.py:119 *) RField (Build_fdesc (Some "engdata") (SzExpr (EMul (EFld "engdatc" 1) (EFld "engdts" 1))) (TData KExt) FrNone DfNone None false 32%N false None 0%Z true)]
].

(** pynitf/nitf_tre_geosde.py, class TreMAPLOB (line 25), table at line 18. *)
Definition desc_TreMAPLOB : list row := [
  (* pynitf/nitf_tre_geosde.py:18 *) RField (Build_fdesc (Some "uniloa") (SzInt 3%Z) TStr FrNone (DfStr (str "M")) None false 32%N false None 0%Z false);
  (* pynitf/nitf_tre_geosde.py:19 *) RField (Build_fdesc (Some "lod") (SzInt 5%Z) TInt FrNone DfNone None false 32%N false None 0%Z false);
  (* pynitf/nitf_tre_geosde.py:20 *) RField (Build_fdesc (Some "lad") (SzInt 5%Z) TInt FrNone DfNone None false 32%N false None 0%Z false);
  (* pynitf/nitf_tre_geosde.py:21 *) RField (Build_fdesc (Some "lso") (SzInt 15%Z) TFloat (FrF (FsPct true true false 15 1 false false)) DfNone None false 32%N false None 0%Z false);
  (* pynitf/nitf_tre_geosde.py:22 *) RField (Build_fdesc (Some "pso") (SzInt 15%Z) TFloat (FrF (FsPct true true false 15 1 false false)) DfNone None false 32%N false None 0%Z false)
].

(** pynitf/nitf_tre_geosde.py, class TreGEOPSB (line 63), table at line 47. *)
Definition desc_TreGEOPSB : list row := [
  (* pynitf/nitf_tre_geosde.py:47 *) RField (Build_fdesc (Some "typ") (SzInt 3%Z) TStr FrNone (DfStr (str "MAP")) None false 32%N false None 0%Z false);
  (* pynitf/nitf_tre_geosde.py:48 *) RField (Build_fdesc (Some "uni") (SzInt 3%Z) TStr FrNone (DfStr (str "M")) None false 32%N false None 0%Z false);
  (* pynitf/nitf_tre_geosde.py:49 *) RField (Build_fdesc (Some "dag") (SzInt 80%Z) TStr FrNone (DfStr (str "World Geodetic System 1984")) None false 32%N false None 0%Z false);
  (* pynitf/nitf_tre_geosde.py:50 *) RField (Build_fdesc (Some "dcd") (SzInt 4%Z) TStr FrNone (DfStr (str "WGE")) None false 32%N false None 0%Z false);
  (* pynitf/nitf_tre_geosde.py:51 *) RField (Build_fdesc (Some "ell") (SzInt 80%Z) TStr FrNone (DfStr (str "World Geodetic System 1984")) None false 32%N false None 0%Z false);
  (* pynitf/nitf_tre_geosde.py:52 *) RField (Build_fdesc (Some "elc") (SzInt 3%Z) TStr FrNone (DfStr (str "WE")) None false 32%N false None 0%Z false);
  (* pynitf/nitf_tre_geosde.py:53 *) RField (Build_fdesc (Some "dvr") (SzInt 80%Z) TStr FrNone (DfStr (str "Geodetic")) None false 32%N false None 0%Z false);
  (* pynitf/nitf_tre_geosde.py:54 *) RField (Build_fdesc (Some "vdcdvr") (SzInt 4%Z) TStr FrNone (DfStr (str "GEOD")) None false 32%N false None 0%Z false);
  (* pynitf/nitf_tre_geosde.py:55 *) RField (Build_fdesc (Some "sda") (SzInt 80%Z) TStr FrNone (DfStr (str "Mean Sea")) None false 32%N false None 0%Z false);
  (* pynitf/nitf_tre_geosde.py:56 *) RField (Build_fdesc (Some "vdcsda") (SzInt 4%Z) TStr FrNone (DfStr (str "MSL")) None false 32%N false None 0%Z false);
  (* pynitf/nitf_tre_geosde.py:57 *) RField (Build_fdesc (Some "zor") (SzInt 15%Z) TInt FrNone DfNone None false 32%N false None 0%Z false);
  (* pynitf/nitf_tre_geosde.py:58 *) RField (Build_fdesc (Some "grd") (SzInt 3%Z) TStr FrNone DfNone None false 32%N false None 0%Z false);
  (* pynitf/nitf_tre_geosde.py:59 *) RField (Build_fdesc (Some "grn") (SzInt 80%Z) TStr FrNone DfNone None false 32%N false None 0%Z false);
  (* pynitf/nitf_tre_geosde.py:60 *) RField (Build_fdesc (Some "xna") (SzInt 4%Z) TInt FrNone DfNone None false 32%N false None 0%Z false)
].

(** pynitf/nitf_tre_geosde.py, class TrePRJPSB (line 94), table at line 85. *)
Definition desc_TrePRJPSB : list row := [
  (* pynitf/nitf_tre_geosde.py:85 *) RField (Build_fdesc (Some "prn") (SzInt 80%Z) TStr FrNone DfNone None false 32%N false None 0%Z false);
  (* pynitf/nitf_tre_geosde.py:86 *) RField (Build_fdesc (Some "pco") (SzInt 2%Z) TStr FrNone (DfStr (str "TC")) None false 32%N false None 0%Z false);
  (* pynitf/nitf_tre_geosde.py:87 *) RField (Build_fdesc (Some "numprj") (SzInt 1%Z) TInt FrNone DfNone None false 32%N false None 0%Z false);
  (* pynitf/nitf_tre_geosde.py:88 *)
  RLoop (EFld "numprj" 0) [
    (* pynitf/nitf_tre_geosde.py:89 *) RField (Build_fdesc (Some "prj") (SzInt 15%Z) TFloat FrNone DfNone None false 32%N false None 0%Z false)];
  (* pynitf/nitf_tre_geosde.py:90 *) RField (Build_fdesc (Some "xor") (SzInt 15%Z) TInt FrNone DfNone None false 32%N false None 0%Z false);
  (* pynitf/nitf_tre_geosde.py:91 *) RField (Build_fdesc (Some "yor") (SzInt 15%Z) TInt FrNone DfNone None false 32%N false None 0%Z false)
].

(** pynitf/nitf_tre_histoa.py, class TreHISTOA (line 56), table at line 15. *)
Definition desc_TreHISTOA : list row := [
  (* pynitf/nitf_tre_histoa.py:15 *) RField (Build_fdesc (Some "systype") (SzInt 20%Z) TStr FrNone DfNone None false 32%N false None 0%Z false);
  (* pynitf/nitf_tre_histoa.py:16 *) RField (Build_fdesc (Some "pc") (SzInt 12%Z) TStr FrNone DfNone None false 32%N false None 0%Z false);
  (* pynitf/nitf_tre_histoa.py:17 *) RField (Build_fdesc (Some "pe") (SzInt 4%Z) TStr FrNone DfNone None false 32%N false None 0%Z false);
  (* pynitf/nitf_tre_histoa.py:18 *) RField (Build_fdesc (Some "remap_flag") (SzInt 1%Z) TStr FrNone DfNone None false 32%N false None 0%Z false);
  (* pynitf/nitf_tre_histoa.py:19 *) RField (Build_fdesc (Some "lutid") (SzInt 2%Z) TInt FrNone DfNone None false 32%N false None 0%Z false);
  (* pynitf/nitf_tre_histoa.py:20 *) RField (Build_fdesc (Some "nevents") (SzInt 2%Z) TInt FrNone DfNone None false 32%N false None 0%Z false);
  (* pynitf/nitf_tre_histoa.py:21 *)
  RLoop (EFld "nevents" 0) [
    (* pynitf/nitf_tre_histoa.py:22 *) RField (Build_fdesc (Some "pdate") (SzInt 14%Z) TStr FrNone DfNone None false 32%N false None 0%Z false);
    (* pynitf/nitf_tre_histoa.py:23 *) RField (Build_fdesc (Some "psite") (SzInt 10%Z) TStr FrNone DfNone None false 32%N false None 0%Z false);
    (* pynitf/nitf_tre_histoa.py:24 *) RField (Build_fdesc (Some "pas") (SzInt 10%Z) TStr FrNone DfNone None false 32%N false None 0%Z false);
    (* pynitf/nitf_tre_histoa.py:25 *) RField (Build_fdesc (Some "nipcom") (SzInt 1%Z) TInt FrNone DfNone None false 32%N false None 0%Z false);
    (* pynitf/nitf_tre_histoa.py:26 *)
    RLoop (EFld "nipcom" 1) [
      (* pynitf/nitf_tre_histoa.py:27 *) RField (Build_fdesc (Some "ipcom") (SzInt 80%Z) TStr FrNone DfNone None false 32%N false None 0%Z false)];
    (* pynitf/nitf_tre_histoa.py:28 *) RField (Build_fdesc (Some "ibpp") (SzInt 2%Z) TInt FrNone DfNone None false 32%N false None 0%Z false);
    (* pynitf/nitf_tre_histoa.py:29 *) RField (Build_fdesc (Some "ipvtype") (SzInt 3%Z) TStr FrNone DfNone None false 32%N false None 0%Z false);
    (* pynitf/nitf_tre_histoa.py:30 *) RField (Build_fdesc (Some "inbwc") (SzInt 10%Z) TStr FrNone DfNone None false 32%N false None 0%Z false);
    (* pynitf/nitf_tre_histoa.py:31 *) RField (Build_fdesc (Some "disp_flag") (SzInt 1%Z) TStr FrNone DfNone None false 32%N false None 0%Z false);
    (* pynitf/nitf_tre_histoa.py:32 *) RField (Build_fdesc (Some "rot_flag") (SzInt 1%Z) TInt FrNone DfNone None false 32%N false None 0%Z false);
    (* pynitf/nitf_tre_histoa.py:33 *) RField (Build_fdesc (Some "rot_angle") (SzInt 8%Z) TFloat FrNone DfNone (Some (ECmp CEq (EFld "rot_flag" 1) (EInt 1%Z))) false 32%N false None 0%Z false);
    (* pynitf/nitf_tre_histoa.py:34 *) RField (Build_fdesc (Some "asym_flag") (SzInt 1%Z) TStr FrNone DfNone None false 32%N false None 0%Z false);
    (* pynitf/nitf_tre_histoa.py:35 *) RField (Build_fdesc (Some "zoomrow") (SzInt 7%Z) TFloat FrNone DfNone (Some (ECmp CEq (EFld "asym_flag" 1) (EStr (str "1")))) false 32%N false None 0%Z false);
    (* pynitf/nitf_tre_histoa.py:36 *) RField (Build_fdesc (Some "zoomcol") (SzInt 7%Z) TFloat FrNone DfNone (Some (ECmp CEq (EFld "asym_flag" 1) (EStr (str "1")))) false 32%N false None 0%Z false);
    (* pynitf/nitf_tre_histoa.py:37 *) RField (Build_fdesc (Some "proj_flag") (SzInt 1%Z) TInt FrNone DfNone None false 32%N false None 0%Z false);
    (* pynitf/nitf_tre_histoa.py:38 *) RField (Build_fdesc (Some "sharp_flag") (SzInt 1%Z) TInt FrNone DfNone None false 32%N false None 0%Z false);
    (* pynitf/nitf_tre_histoa.py:39 *) RField (Build_fdesc (Some "sharpfam") (SzInt 2%Z) TInt FrNone DfNone (Some (ECmp CEq (EFld "sharp_flag" 1) (EInt 1%Z))) false 32%N false None 0%Z false);
    (* pynitf/nitf_tre_histoa.py:40 *) RField (Build_fdesc (Some "sharpmem") (SzInt 2%Z) TInt FrNone DfNone (Some (ECmp CEq (EFld "sharp_flag" 1) (EInt 1%Z))) false 32%N false None 0%Z false);
    (* pynitf/nitf_tre_histoa.py:41 *) RField (Build_fdesc (Some "mag_flag") (SzInt 1%Z) TInt FrNone DfNone None false 32%N false None 0%Z false);
    (* pynitf/nitf_tre_histoa.py:42 *) RField (Build_fdesc (Some "mag_level") (SzInt 7%Z) TFloat FrNone DfNone (Some (ECmp CEq (EFld "mag_flag" 1) (EInt 1%Z))) false 32%N false None 0%Z false);
    (* pynitf/nitf_tre_histoa.py:43 *) RField (Build_fdesc (Some "dra_flag") (SzInt 1%Z) TInt FrNone DfNone None false 32%N false None 0%Z false);
    (* pynitf/nitf_tre_histoa.py:44 *) RField (Build_fdesc (Some "dra_mult") (SzInt 7%Z) TFloat FrNone DfNone (Some (ECmp CEq (EFld "dra_flag" 1) (EInt 1%Z))) false 32%N false None 0%Z false);
    (* pynitf/nitf_tre_histoa.py:45 *) RField (Build_fdesc (Some "dra_sub") (SzInt 5%Z) TInt FrNone DfNone (Some (ECmp CEq (EFld "dra_flag" 1) (EInt 1%Z))) false 32%N false None 0%Z false);
    (* pynitf/nitf_tre_histoa.py:46 *) RField (Build_fdesc (Some "ttc_flag") (SzInt 1%Z) TInt FrNone DfNone None false 32%N false None 0%Z false);
    (* pynitf/nitf_tre_histoa.py:47 *) RField (Build_fdesc (Some "ttcfam") (SzInt 2%Z) TInt FrNone DfNone (Some (ECmp CEq (EFld "ttc_flag" 1) (EInt 1%Z))) false 32%N false None 0%Z false);
    (* pynitf/nitf_tre_histoa.py:48 *) RField (Build_fdesc (Some "ttcmem") (SzInt 2%Z) TInt FrNone DfNone (Some (ECmp CEq (EFld "ttc_flag" 1) (EInt 1%Z))) false 32%N false None 0%Z false);
    (* pynitf/nitf_tre_histoa.py:49 *) RField (Build_fdesc (Some "devlut_flag") (SzInt 1%Z) TInt FrNone DfNone None false 32%N false None 0%Z false);
    (* pynitf/nitf_tre_histoa.py:50 *) RField (Build_fdesc (Some "obpp") (SzInt 2%Z) TInt FrNone DfNone None false 32%N false None 0%Z false);
    (* pynitf/nitf_tre_histoa.py:51 *) RField (Build_fdesc (Some "opvtype") (SzInt 3%Z) TStr FrNone DfNone None false 32%N false None 0%Z false);
    (* pynitf/nitf_tre_histoa.py:52 *) RField (Build_fdesc (Some "outbwc") (SzInt 10%Z) TStr FrNone DfNone None false 32%N false None 0%Z false)]
].

(** pynitf/nitf_tre_ichipb.py, class TreICHIPB (line 55), table at line 14. *)
Definition desc_TreICHIPB : list row := [
  (* pynitf/nitf_tre_ichipb.py:15 *) RField (Build_fdesc (Some "xfrm_flag") (SzInt 2%Z) TInt (FrD (Build_dfmt false true false 2)) DfNone None false 32%N false None 0%Z false);
  (* pynitf/nitf_tre_ichipb.py:16 *) RField (Build_fdesc (Some "scale_factor") (SzInt 10%Z) TFloat (FrF (FsPct false true false 10 5 false false)) DfNone None false 32%N false None 0%Z false);
  (* pynitf/nitf_tre_ichipb.py:17 *) RField (Build_fdesc (Some "anamrph_corr") (SzInt 2%Z) TInt (FrD (Build_dfmt false true false 2)) DfNone None false 32%N false None 0%Z false);
  (* pynitf/nitf_tre_ichipb.py:18 *) RField (Build_fdesc (Some "scanblk_num") (SzInt 2%Z) TInt (FrD (Build_dfmt false true false 2)) DfNone None false 32%N false None 0%Z false);
  (* pynitf/nitf_tre_ichipb.py:19 *) RField (Build_fdesc (Some "op_row_11") (SzInt 12%Z) TFloat (FrF (FsPct false true false 12 3 false false)) DfNone None false 32%N false None 0%Z false);
  (* pynitf/nitf_tre_ichipb.py:21 *) RField (Build_fdesc (Some "op_col_11") (SzInt 12%Z) TFloat (FrF (FsPct false true false 12 3 false false)) DfNone None false 32%N false None 0%Z false);
  (* pynitf/nitf_tre_ichipb.py:23 *) RField (Build_fdesc (Some "op_row_12") (SzInt 12%Z) TFloat (FrF (FsPct false true false 12 3 false false)) DfNone None false 32%N false None 0%Z false);
  (* pynitf/nitf_tre_ichipb.py:25 *) RField (Build_fdesc (Some "op_col_12") (SzInt 12%Z) TFloat (FrF (FsPct false true false 12 3 false false)) DfNone None false 32%N false None 0%Z false);
  (* pynitf/nitf_tre_ichipb.py:27 *) RField (Build_fdesc (Some "op_row_21") (SzInt 12%Z) TFloat (FrF (FsPct false true false 12 3 false false)) DfNone None false 32%N false None 0%Z false);
  (* pynitf/nitf_tre_ichipb.py:29 *) RField (Build_fdesc (Some "op_col_21") (SzInt 12%Z) TFloat (FrF (FsPct false true false 12 3 false false)) DfNone None false 32%N false None 0%Z false);
  (* pynitf/nitf_tre_ichipb.py:31 *) RField (Build_fdesc (Some "op_row_22") (SzInt 12%Z) TFloat (FrF (FsPct false true false 12 3 false false)) DfNone None false 32%N false None 0%Z false);
  (* pynitf/nitf_tre_ichipb.py:33 *) RField (Build_fdesc (Some "op_col_22") (SzInt 12%Z) TFloat (FrF (FsPct false true false 12 3 false false)) DfNone None false 32%N false None 0%Z false);
  (* pynitf/nitf_tre_ichipb.py:35 *) RField (Build_fdesc (Some "fi_row_11") (SzInt 12%Z) TFloat (FrF (FsPct false true false 12 3 false false)) DfNone None false 32%N false None 0%Z false);
  (* pynitf/nitf_tre_ichipb.py:37 *) RField (Build_fdesc (Some "fi_col_11") (SzInt 12%Z) TFloat (FrF (FsPct false true false 12 3 false false)) DfNone None false 32%N false None 0%Z false);
  (* pynitf/nitf_tre_ichipb.py:39 *) RField (Build_fdesc (Some "fi_row_12") (SzInt 12%Z) TFloat (FrF (FsPct false true false 12 3 false false)) DfNone None false 32%N false None 0%Z false);
  (* pynitf/nitf_tre_ichipb.py:41 *) RField (Build_fdesc (Some "fi_col_12") (SzInt 12%Z) TFloat (FrF (FsPct false true false 12 3 false false)) DfNone None false 32%N false None 0%Z false);
  (* pynitf/nitf_tre_ichipb.py:43 *) RField (Build_fdesc (Some "fi_row_21") (SzInt 12%Z) TFloat (FrF (FsPct false true false 12 3 false false)) DfNone None false 32%N false None 0%Z false);
  (* pynitf/nitf_tre_ichipb.py:45 *) RField (Build_fdesc (Some "fi_col_21") (SzInt 12%Z) TFloat (FrF (FsPct false true false 12 3 false false)) DfNone None false 32%N false None 0%Z false);
  (* pynitf/nitf_tre_ichipb.py:47 *) RField (Build_fdesc (Some "fi_row_22") (SzInt 12%Z) TFloat (FrF (FsPct false true false 12 3 false false)) DfNone None false 32%N false None 0%Z false);
  (* pynitf/nitf_tre_ichipb.py:49 *) RField (Build_fdesc (Some "fi_col_22") (SzInt 12%Z) TFloat (FrF (FsPct false true false 12 3 false false)) DfNone None false 32%N false None 0%Z false);
  (* pynitf/nitf_tre_ichipb.py:51 *) RField (Build_fdesc (Some "fi_row") (SzInt 8%Z) TInt (FrD (Build_dfmt false true false 8)) DfNone None false 32%N false None 0%Z false);
  (* pynitf/nitf_tre_ichipb.py:52 *) RField (Build_fdesc (Some "fi_col") (SzInt 8%Z) TInt (FrD (Build_dfmt false true false 8)) DfNone None false 32%N false None 0%Z false)
].

(** pynitf/nitf_tre_illumb.py, class TreILLUMB (line 74), table at line 16. *)
Definition desc_TreILLUMB : list row := [
  (* pynitf/nitf_tre_illumb.py:16 *) RField (Build_fdesc (Some "num_bands") (SzInt 4%Z) TInt (FrD (Build_dfmt false true false 4)) DfNone None false 32%N false None 0%Z false);
  (* pynitf/nitf_tre_illumb.py:17 *) RField (Build_fdesc (Some "band_unit") (SzInt 40%Z) TStr FrNone DfNone None false 32%N false None 0%Z false);
  (* pynitf/nitf_tre_illumb.py:18 *)
  RLoop (EFld "num_bands" 0) [
    (* pynitf/nitf_tre_illumb.py:19 *) RField (Build_fdesc (Some "lbound") (SzInt 16%Z) TFloat (FrF (FsPct false true false 16 10 false false)) DfNone None false 32%N false None 0%Z false);
    (* pynitf/nitf_tre_illumb.py:20 *) RField (Build_fdesc (Some "ubound") (SzInt 16%Z) TFloat (FrF (FsPct false true false 16 10 false false)) DfNone None false 32%N false None 0%Z false)];
  (* pynitf/nitf_tre_illumb.py:21 *) RField (Build_fdesc (Some "num_others") (SzInt 2%Z) TInt (FrD (Build_dfmt false true false 2)) DfNone None false 32%N false None 0%Z false);
  (* pynitf/nitf_tre_illumb.py:22 *)
  RLoop (EFld "num_others" 0) [
    (* pynitf/nitf_tre_illumb.py:23 *) RField (Build_fdesc (Some "other_name") (SzInt 40%Z) TStr FrNone DfNone None false 32%N false None 0%Z false)];
  (* pynitf/nitf_tre_illumb.py:24 *) RField (Build_fdesc (Some "num_coms") (SzInt 1%Z) TInt FrNone DfNone None false 32%N false None 0%Z false);
  (* pynitf/nitf_tre_illumb.py:25 *)
  RLoop (EFld "num_coms" 0) [
    (* pynitf/nitf_tre_illumb.py:26 *) RField (Build_fdesc (Some "comment") (SzInt 80%Z) TStr FrNone DfNone None false 32%N false None 0%Z false)];
  (* pynitf/nitf_tre_illumb.py:27 *) RField (Build_fdesc (Some "geo_datum") (SzInt 80%Z) TStr FrNone (DfStr (str "World Geodetic System 1984")) None false 32%N false None 0%Z false);
  (* pynitf/nitf_tre_illumb.py:28 *) RField (Build_fdesc (Some "geo_datum_code") (SzInt 4%Z) TStr FrNone (DfStr (str "WGE")) None false 32%N false None 0%Z false);
  (* pynitf/nitf_tre_illumb.py:29 *) RField (Build_fdesc (Some "ellipsoid_name") (SzInt 80%Z) TStr FrNone (DfStr (str "World Geodetic System 1984")) None false 32%N false None 0%Z false);
  (* pynitf/nitf_tre_illumb.py:30 *) RField (Build_fdesc (Some "ellipsoid_code") (SzInt 3%Z) TStr FrNone (DfStr (str "WE")) None false 32%N false None 0%Z false);
  (* pynitf/nitf_tre_illumb.py:31 *) RField (Build_fdesc (Some "vertical_datum_ref") (SzInt 80%Z) TStr FrNone (DfStr (str "Geodetic")) None false 32%N false None 0%Z false);
  (* pynitf/nitf_tre_illumb.py:32 *) RField (Build_fdesc (Some "vertical_ref_code") (SzInt 4%Z) TStr FrNone (DfStr (str "GEOD")) None false 32%N false None 0%Z false);
  (* pynitf/nitf_tre_illumb.py:33 *) RField (Build_fdesc (Some "existence_mask") (SzInt 3%Z) (TData (KInt false)) FrNone DfNone None false 32%N false None 0%Z true);
  (* pynitf/nitf_tre_illumb.py:34 *) RField (Build_fdesc (Some "rad_quantity") (SzInt 40%Z) TStr FrNone DfNone (Some (EBitAnd (EFld "existence_mask" 0) (EInt 8388608%Z))) false 32%N false None 0%Z false);
  (* pynitf/nitf_tre_illumb.py:35 *) RField (Build_fdesc (Some "radq_unit") (SzInt 40%Z) TStr FrNone DfNone (Some (EBitAnd (EFld "existence_mask" 0) (EInt 8388608%Z))) false 32%N false None 0%Z false);
  (* pynitf/nitf_tre_illumb.py:36 *) RField (Build_fdesc (Some "num_illum_sets") (SzInt 3%Z) TInt (FrD (Build_dfmt false true false 3)) DfNone None false 32%N false None 0%Z false);
  (* pynitf/nitf_tre_illumb.py:37 *)
  RLoop (EFld "num_illum_sets" 0) [
    (* pynitf/nitf_tre_illumb.py:38 *) RField (Build_fdesc (Some "datetime") (SzInt 14%Z) TStr FrNone DfNone None false 32%N false None 0%Z false);
    (* pynitf/nitf_tre_illumb.py:39 *) RField (Build_fdesc (Some "target_lat") (SzInt 10%Z) TFloat (FrF (FsPct true true false 10 6 false false)) DfNone None false 32%N false None 0%Z false);
    (* pynitf/nitf_tre_illumb.py:40 *) RField (Build_fdesc (Some "target_lon") (SzInt 11%Z) TFloat (FrF (FsPct true true false 11 6 false false)) DfNone None false 32%N false None 0%Z false);
    (* pynitf/nitf_tre_illumb.py:41 *) RField (Build_fdesc (Some "target_hgt") (SzInt 14%Z) TFloat (FrF (FsPct true true false 14 7 true true)) DfNone None false 32%N false None 0%Z false);
    (* pynitf/nitf_tre_illumb.py:42 *) RField (Build_fdesc (Some "sun_azimuth") (SzInt 5%Z) TFloat (FrF (FsPct false true false 5 1 false false)) DfNone (Some (EBitAnd (EFld "existence_mask" 0) (EInt 4194304%Z))) false 32%N false None 0%Z false);
    (* pynitf/nitf_tre_illumb.py:43 *) RField (Build_fdesc (Some "sun_elev") (SzInt 5%Z) TFloat (FrF (FsPct true true false 5 1 false false)) DfNone (Some (EBitAnd (EFld "existence_mask" 0) (EInt 4194304%Z))) false 32%N false None 0%Z false);
    (* pynitf/nitf_tre_illumb.py:44 *) RField (Build_fdesc (Some "moon_azimuth") (SzInt 5%Z) TFloat (FrF (FsPct false true false 5 1 false false)) DfNone (Some (EBitAnd (EFld "existence_mask" 0) (EInt 2097152%Z))) false 32%N false None 0%Z false);
    (* pynitf/nitf_tre_illumb.py:45 *) RField (Build_fdesc (Some "moon_elev") (SzInt 5%Z) TFloat (FrF (FsPct true true false 5 1 false false)) DfNone (Some (EBitAnd (EFld "existence_mask" 0) (EInt 2097152%Z))) false 32%N false None 0%Z false);
    (* pynitf/nitf_tre_illumb.py:46 *) RField (Build_fdesc (Some "moon_phase_angle") (SzInt 6%Z) TFloat (FrF (FsPct true true false 6 1 false false)) DfNone (Some (EBitAnd (EFld "existence_mask" 0) (EInt 1048576%Z))) false 32%N false None 0%Z false);
    (* pynitf/nitf_tre_illumb.py:47 *) RField (Build_fdesc (Some "moon_illum_percent") (SzInt 3%Z) TInt (FrD (Build_dfmt false true false 3)) DfNone (Some (EBitAnd (EFld "existence_mask" 0) (EInt 524288%Z))) false 32%N false None 0%Z false);
    (* pynitf/nitf_tre_illumb.py:48 *)
    RLoop (EIf (EBitAnd (EFld "existence_mask" 0) (EInt 262144%Z)) (EFld "num_others" 0) (EInt 0%Z)) [
      (* pynitf/nitf_tre_illumb.py:49 *) RField (Build_fdesc (Some "other_azimuth") (SzInt 5%Z) TFloat (FrF (FsPct false true false 5 1 false false)) DfNone None false 32%N false None 0%Z false);
      (* pynitf/nitf_tre_illumb.py:50 *) RField (Build_fdesc (Some "other_elev") (SzInt 5%Z) TFloat (FrF (FsPct true true false 5 1 false false)) DfNone None false 32%N false None 0%Z false)];
    (* pynitf/nitf_tre_illumb.py:51 *) RField (Build_fdesc (Some "sensor_azimuth") (SzInt 5%Z) TFloat (FrF (FsPct false true false 5 1 false false)) DfNone (Some (EBitAnd (EFld "existence_mask" 0) (EInt 131072%Z))) false 32%N false None 0%Z false);
    (* pynitf/nitf_tre_illumb.py:52 *) RField (Build_fdesc (Some "sensor_elev") (SzInt 5%Z) TFloat (FrF (FsPct true true false 5 1 false false)) DfNone (Some (EBitAnd (EFld "existence_mask" 0) (EInt 131072%Z))) false 32%N false None 0%Z false);
    (* pynitf/nitf_tre_illumb.py:53 *) RField (Build_fdesc (Some "cats_angle") (SzInt 5%Z) TFloat (FrF (FsPct false true false 5 1 false false)) DfNone (Some (EBitAnd (EFld "existence_mask" 0) (EInt 65536%Z))) false 32%N false None 0%Z false);
    (* pynitf/nitf_tre_illumb.py:54 *) RField (Build_fdesc (Some "sun_glint_lat") (SzInt 10%Z) TFloat (FrF (FsPct true true false 10 6 false false)) DfNone (Some (EBitAnd (EFld "existence_mask" 0) (EInt 32768%Z))) false 32%N false None 0%Z false);
    (* pynitf/nitf_tre_illumb.py:55 *) RField (Build_fdesc (Some "sun_glint_lon") (SzInt 11%Z) TFloat (FrF (FsPct true true false 11 6 false false)) DfNone (Some (EBitAnd (EFld "existence_mask" 0) (EInt 32768%Z))) false 32%N false None 0%Z false);
    (* pynitf/nitf_tre_illumb.py:56 *) RField (Build_fdesc (Some "catm_angle") (SzInt 5%Z) TFloat (FrF (FsPct false true false 5 1 false false)) DfNone (Some (EBitAnd (EFld "existence_mask" 0) (EInt 16384%Z))) false 32%N false None 0%Z false);
    (* pynitf/nitf_tre_illumb.py:57 *) RField (Build_fdesc (Some "moon_glint_lat") (SzInt 10%Z) TFloat (FrF (FsPct true true false 10 6 false false)) DfNone (Some (EBitAnd (EFld "existence_mask" 0) (EInt 8192%Z))) false 32%N false None 0%Z false);
    (* pynitf/nitf_tre_illumb.py:58 *) RField (Build_fdesc (Some "moon_glint_lon") (SzInt 11%Z) TFloat (FrF (FsPct true true false 11 6 false false)) DfNone (Some (EBitAnd (EFld "existence_mask" 0) (EInt 8192%Z))) false 32%N false None 0%Z false);
    (* pynitf/nitf_tre_illumb.py:59 *) RField (Build_fdesc (Some "sol_lun_dist_adjust") (SzInt 7%Z) TFloat (FrF (FsPct false false false 7 5 false false)) DfNone (Some (EBitAnd (EFld "existence_mask" 0) (EInt 1024%Z))) false 32%N false None 0%Z false);
    (* pynitf/nitf_tre_illumb.py:60 *)
    RLoop (EFld "num_bands" 0) [
      (* pynitf/nitf_tre_illumb.py:61 *) RField (Build_fdesc (Some "sun_illum_method") (SzInt 1%Z) TStr FrNone DfNone (Some (EBitAnd (EFld "existence_mask" 0) (EInt 4096%Z))) false 32%N false None 0%Z false);
      (* pynitf/nitf_tre_illumb.py:62 *) RField (Build_fdesc (Some "sun_illum") (SzInt 16%Z) TFloat (FrF (FsPct false true false 16 10 false false)) DfNone (Some (EBitAnd (EFld "existence_mask" 0) (EInt 4096%Z))) false 32%N false None 0%Z false);
      (* pynitf/nitf_tre_illumb.py:63 *) RField (Build_fdesc (Some "moon_illum_method") (SzInt 1%Z) TStr FrNone DfNone (Some (EBitAnd (EFld "existence_mask" 0) (EInt 2048%Z))) false 32%N false None 0%Z false);
      (* pynitf/nitf_tre_illumb.py:64 *) RField (Build_fdesc (Some "moon_illum") (SzInt 16%Z) TFloat (FrF (FsPct false true false 16 10 false false)) DfNone (Some (EBitAnd (EFld "existence_mask" 0) (EInt 2048%Z))) false 32%N false None 0%Z false);
      (* pynitf/nitf_tre_illumb.py:65 *) RField (Build_fdesc (Some "tot_sunmoon_illum") (SzInt 16%Z) TFloat (FrF (FsPct false true false 16 10 false false)) DfNone (Some (EBitAnd (EFld "existence_mask" 0) (EInt 1024%Z))) false 32%N false None 0%Z false);
      (* pynitf/nitf_tre_illumb.py:66 *)
      RLoop (EIf (EBitAnd (EFld "existence_mask" 0) (EInt 512%Z)) (EFld "num_others" 0) (EInt 0%Z)) [
        (* pynitf/nitf_tre_illumb.py:67 *) RField (Build_fdesc (Some "other_illum_method") (SzInt 1%Z) TStr FrNone DfNone None false 32%N false None 0%Z false);
        (* pynitf/nitf_tre_illumb.py:68 *) RField (Build_fdesc (Some "other_illum") (SzInt 16%Z) TFloat (FrF (FsPct false true false 16 10 false false)) DfNone None false 32%N false None 0%Z false)];
      (* pynitf/nitf_tre_illumb.py:69 *) RField (Build_fdesc (Some "art_illum_method") (SzInt 1%Z) TStr FrNone DfNone (Some (EBitAnd (EFld "existence_mask" 0) (EInt 256%Z))) false 32%N false None 0%Z false);
      (* pynitf/nitf_tre_illumb.py:70 *) RField (Build_fdesc (Some "art_illum_min") (SzInt 16%Z) TFloat (FrF (FsPct false true false 16 10 false false)) DfNone (Some (EBitAnd (EFld "existence_mask" 0) (EInt 256%Z))) false 32%N false None 0%Z false)];
    (* pynitf/nitf_tre_illumb.py:71 *) RField (Build_fdesc (Some "art_illum_max") (SzInt 16%Z) TFloat (FrF (FsPct false true false 16 10 false false)) DfNone (Some (EBitAnd (EFld "existence_mask" 0) (EInt 256%Z))) false 32%N false None 0%Z false)]
].

(** All tables of this file, by class name.
    (all the descriptions of this file, each cited above; nitf_field.py:787-817.) *)
Definition all_DescsTre : list (string * list row) := [
  ("TreBANDSB", desc_TreBANDSB);
  ("TreCAMSDA", desc_TreCAMSDA);
  ("TreCSCRNA", desc_TreCSCRNA);
  ("TreSTDIDC", desc_TreSTDIDC);
  ("TreUSE00A", desc_TreUSE00A);
  ("TreCSDIDA", desc_TreCSDIDA);
  ("TreCSEPHA", desc_TreCSEPHA);
  ("TreCSEXRB", desc_TreCSEXRB);
  ("TreENGRDA", desc_TreENGRDA);
  ("TreMAPLOB", desc_TreMAPLOB);
  ("TreGEOPSB", desc_TreGEOPSB);
  ("TrePRJPSB", desc_TrePRJPSB);
  ("TreHISTOA", desc_TreHISTOA);
  ("TreICHIPB", desc_TreICHIPB);
  ("TreILLUMB", desc_TreILLUMB)
].
