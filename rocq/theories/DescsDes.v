(** Field tables of pynitf, generated from the python sources by tools/gen_desc.py
    (data extension segments).  Each row cites the line it was translated from. *)
From Verif Require Import Base Engine.
Open Scope string_scope.

(** pynitf/nitf_des_csatta.py, class DesCSATTA (line 34), table at line 19. *)
Definition desc_DesCSATTA : list row := [
  (* pynitf/nitf_des_csatta.py:19 *) RField (Build_fdesc (Some "att_type") (SzInt 12%Z) TStr FrNone DfNone None false 32%N false None 0%Z false);
  (* pynitf/nitf_des_csatta.py:20 *) RField (Build_fdesc (Some "dt_att") (SzInt 14%Z) TStr FrNone DfNone None false 32%N false None 0%Z false);
  (* pynitf/nitf_des_csatta.py:21 *) RField (Build_fdesc (Some "date_att") (SzInt 8%Z) TInt FrNone DfNone None false 32%N false None 0%Z false);
  (* pynitf/nitf_des_csatta.py:22 *) RField (Build_fdesc (Some "t0_att") (SzInt 13%Z) TStr FrNone DfNone None false 32%N false None 0%Z false);
  (* pynitf/nitf_des_csatta.py:23 *) RField (Build_fdesc (Some "num_att") (SzInt 5%Z) TInt FrNone DfNone None false 32%N false None 0%Z false);
  (* pynitf/nitf_des_csatta.py:24 *)
  RLoop (EFld "num_att" 0) [
    (* pynitf/nitf_des_csatta.py:25 *) RField (Build_fdesc (Some "att_q1") (SzInt 8%Z) TFloat (FrF (FsPct false true false 8 5 false false)) DfNone None false 32%N false None 0%Z false);
    (* pynitf/nitf_des_csatta.py:26 *) RField (Build_fdesc (Some "att_q2") (SzInt 8%Z) TFloat (FrF (FsPct false true false 8 5 false false)) DfNone None false 32%N false None 0%Z false);
    (* pynitf/nitf_des_csatta.py:27 *) RField (Build_fdesc (Some "att_q3") (SzInt 8%Z) TFloat (FrF (FsPct false true false 8 5 false false)) DfNone None false 32%N false None 0%Z false);
    (* pynitf/nitf_des_csatta.py:28 *) RField (Build_fdesc (Some "att_q4") (SzInt 8%Z) TFloat (FrF (FsPct false true false 8 5 false false)) DfNone None false 32%N false None 0%Z false)]
].

(** pynitf/nitf_des_csattb.py, class DesCSATTB (line 38), table at line 19. *)
Definition desc_DesCSATTB : list row := [
  (* pynitf/nitf_des_csattb.py:19 *) RField (Build_fdesc (Some "qual_flag_att") (SzInt 1%Z) TInt FrNone DfNone None false 32%N false None 0%Z false);
  (* pynitf/nitf_des_csattb.py:20 *) RField (Build_fdesc (Some "interp_type_att") (SzInt 1%Z) TInt FrNone DfNone None false 32%N false None 0%Z false);
  (* pynitf/nitf_des_csattb.py:21 *) RField (Build_fdesc (Some "interp_order_att") (SzInt 1%Z) TInt FrNone DfNone (Some (ECmp CEq (EFld "interp_type_att" 0) (EInt 2%Z))) false 32%N false None 0%Z false);
  (* pynitf/nitf_des_csattb.py:22 *) RField (Build_fdesc (Some "att_type") (SzInt 1%Z) TInt FrNone DfNone None false 32%N false None 0%Z false);
  (* pynitf/nitf_des_csattb.py:23 *) RField (Build_fdesc (Some "eci_ecf_att") (SzInt 1%Z) TInt FrNone DfNone None false 32%N false None 0%Z false);
  (* pynitf/nitf_des_csattb.py:24 *) RField (Build_fdesc (Some "dt_att") (SzInt 13%Z) TFloat (FrF (FsPct false true false 13 9 false false)) DfNone None false 32%N false None 0%Z false);
  (* pynitf/nitf_des_csattb.py:25 *) RField (Build_fdesc (Some "date_att") (SzInt 8%Z) TInt FrNone DfNone None false 32%N false None 0%Z false);
  (* pynitf/nitf_des_csattb.py:26 *) RField (Build_fdesc (Some "t0_att") (SzInt 16%Z) TFloat (FrF (FsPct false true false 16 9 false false)) DfNone None false 32%N false None 0%Z false);
  (* pynitf/nitf_des_csattb.py:27 *) RField (Build_fdesc (Some "num_att") (SzInt 5%Z) TInt FrNone DfNone None false 32%N false None 0%Z false);
  (* pynitf/nitf_des_csattb.py:28 *)
  RLoop (EFld "num_att" 0) [
    (* pynitf/nitf_des_csattb.py:29 *) RField (Build_fdesc (Some "q1") (SzInt 18%Z) TFloat (FrF (FsPct true false false 18 15 false false)) DfNone None false 32%N false None 0%Z false);
    (* pynitf/nitf_des_csattb.py:30 *) RField (Build_fdesc (Some "q2") (SzInt 18%Z) TFloat (FrF (FsPct true false false 18 15 false false)) DfNone None false 32%N false None 0%Z false);
    (* pynitf/nitf_des_csattb.py:31 *) RField (Build_fdesc (Some "q3") (SzInt 18%Z) TFloat (FrF (FsPct true false false 18 15 false false)) DfNone None false 32%N false None 0%Z false);
    (* pynitf/nitf_des_csattb.py:32 *) RField (Build_fdesc (Some "q4") (SzInt 18%Z) TFloat (FrF (FsPct true false false 18 15 false false)) DfNone None false 32%N false None 0%Z false)];
  (* pynitf/nitf_des_csattb.py:34 *) RField (Build_fdesc (Some "reserved_len") (SzInt 9%Z) TInt FrNone DfNone None false 32%N false None 0%Z false);
  (* pynitf/nitf_des_csattb.py:35 *) RField (Build_fdesc (Some "reserved") (SzExpr (EFld "reserved_len" 0)) (TData KBytes) FrNone DfNone None false 32%N false None 0%Z false)
].

(** pynitf/nitf_des_cscsdb.py, class DesCSCSDB (line 330), table at line 19. *)
Definition desc_DesCSCSDB : list row := [
  (* pynitf/nitf_des_cscsdb.py:19 *) RField (Build_fdesc (Some "cov_version_date") (SzInt 8%Z) TStr FrNone DfNone None false 32%N false None 0%Z false);
  (* pynitf/nitf_des_cscsdb.py:20 *) RField (Build_fdesc (Some "core_sets") (SzInt 1%Z) TInt FrNone DfNone None false 32%N false None 0%Z false);
  (* pynitf/nitf_des_cscsdb.py:21 *)
  RLoop (EFld "core_sets" 0) [
    (* pynitf/nitf_des_cscsdb.py:22 *) RField (Build_fdesc (Some "ref_frame_position") (SzInt 1%Z) TInt FrNone DfNone None false 32%N false None 0%Z false);
    (* pynitf/nitf_des_cscsdb.py:23 *) RField (Build_fdesc (Some "ref_frame_attitude") (SzInt 1%Z) TInt FrNone DfNone None false 32%N false None 0%Z false);
    (* pynitf/nitf_des_cscsdb.py:24 *) RField (Build_fdesc (Some "num_groups") (SzInt 1%Z) TInt FrNone DfNone None false 32%N false None 0%Z false);
    (* pynitf/nitf_des_cscsdb.py:25 *)
    RLoop (EFld "num_groups" 1) [
      (* pynitf/nitf_des_cscsdb.py:26 *) RField (Build_fdesc (Some "corr_ref_date") (SzInt 8%Z) TStr FrNone DfNone None false 32%N false None 0%Z false);
      (* pynitf/nitf_des_cscsdb.py:27 *) RField (Build_fdesc (Some "corr_ref_time") (SzInt 16%Z) TFloat (FrF (FsPct false true false 16 9 false false)) DfNone None false 32%N false None 0%Z false);
      (* pynitf/nitf_des_cscsdb.py:28 *) RField (Build_fdesc (Some "num_adj_parm") (SzInt 1%Z) TInt FrNone DfNone None false 32%N false None 0%Z false);
      (* pynitf/nitf_des_cscsdb.py:29 *)
      RLoop (EFld "num_adj_parm" 2) [
        (* pynitf/nitf_des_cscsdb.py:30 *) RField (Build_fdesc (Some "adj_parm_id") (SzInt 1%Z) TInt FrNone DfNone None false 32%N false None 0%Z false)];
      (* pynitf/nitf_des_cscsdb.py:32 *) RField (Build_fdesc (Some "basic_sub_alloc") (SzInt 1%Z) TInt FrNone DfNone None false 32%N false None 0%Z false);
      (* pynitf/nitf_des_cscsdb.py:33 *)
      RLoop (EIf (ECmp CEq (EFld "basic_sub_alloc" 2) (EInt 1%Z)) (EHalfMul (EFld "num_adj_parm" 2) (EAdd (EFld "num_adj_parm" 2) (EInt 1%Z))) (EInt 0%Z)) [
        (* pynitf/nitf_des_cscsdb.py:34 *) RField (Build_fdesc (Some "errcov_c1") (SzInt 21%Z) TFloat (FrF (FsPct true false false 15 14 true false)) DfNone None false 32%N false None 0%Z false)];
      (* pynitf/nitf_des_cscsdb.py:37 *) RField (Build_fdesc (Some "basic_pf_flag") (SzInt 1%Z) TInt FrNone DfNone (Some (ECmp CEq (EFld "basic_sub_alloc" 2) (EInt 1%Z))) false 32%N false None 0%Z false);
      (* pynitf/nitf_des_cscsdb.py:39 *) RField (Build_fdesc (Some "num_basic_pf") (SzInt 2%Z) TInt FrNone DfNone (Some (EAnd (ECmp CEq (EFld "basic_sub_alloc" 2) (EInt 1%Z)) (ECmp CEq (EFld "basic_pf_flag" 2) (EInt 1%Z)))) false 32%N false None 0%Z false);
      (* pynitf/nitf_des_cscsdb.py:41 *)
      RLoop (EIf (EAnd (ECmp CEq (EFld "basic_sub_alloc" 2) (EInt 1%Z)) (ECmp CEq (EFld "basic_pf_flag" 2) (EInt 1%Z))) (EFld "num_basic_pf" 2) (EInt 0%Z)) [
        (* pynitf/nitf_des_cscsdb.py:42 *) RField (Build_fdesc (Some "basic_pf_spdcf") (SzInt 2%Z) TInt FrNone DfNone None false 32%N false None 0%Z false);
        (* pynitf/nitf_des_cscsdb.py:43 *) RField (Build_fdesc (Some "num_pairings_basic_pf") (SzInt 2%Z) TInt FrNone DfNone None false 32%N false None 0%Z false);
        (* pynitf/nitf_des_cscsdb.py:44 *)
        RLoop (EFld "num_pairings_basic_pf" 3) [
          (* pynitf/nitf_des_cscsdb.py:45 *) RField (Build_fdesc (Some "basic_pf_sdpcf_sensor") (SzInt 6%Z) TStr FrNone DfNone None false 32%N false None 0%Z false)]];
      (* pynitf/nitf_des_cscsdb.py:49 *) RField (Build_fdesc (Some "basic_pl_flag") (SzInt 1%Z) TInt FrNone DfNone (Some (ECmp CEq (EFld "basic_sub_alloc" 2) (EInt 1%Z))) false 32%N false None 0%Z false);
      (* pynitf/nitf_des_cscsdb.py:51 *) RField (Build_fdesc (Some "num_basic_pl") (SzInt 2%Z) TInt FrNone DfNone (Some (EAnd (ECmp CEq (EFld "basic_sub_alloc" 2) (EInt 1%Z)) (ECmp CEq (EFld "basic_pl_flag" 2) (EInt 1%Z)))) false 32%N false None 0%Z false);
      (* pynitf/nitf_des_cscsdb.py:53 *)
      RLoop (EIf (EAnd (ECmp CEq (EFld "basic_sub_alloc" 2) (EInt 1%Z)) (ECmp CEq (EFld "basic_pl_flag" 2) (EInt 1%Z))) (EFld "num_basic_pl" 2) (EInt 0%Z)) [
        (* pynitf/nitf_des_cscsdb.py:54 *) RField (Build_fdesc (Some "basic_pl_spdcf") (SzInt 2%Z) TInt FrNone DfNone None false 32%N false None 0%Z false);
        (* pynitf/nitf_des_cscsdb.py:55 *) RField (Build_fdesc (Some "num_pairings_basic_pl") (SzInt 2%Z) TInt FrNone DfNone None false 32%N false None 0%Z false);
        (* pynitf/nitf_des_cscsdb.py:56 *)
        RLoop (EFld "num_pairings_basic_pl" 3) [
          (* pynitf/nitf_des_cscsdb.py:57 *) RField (Build_fdesc (Some "basic_pl_sdpcf_sensor") (SzInt 6%Z) TStr FrNone DfNone None false 32%N false None 0%Z false)]];
      (* pynitf/nitf_des_cscsdb.py:60 *) RField (Build_fdesc (Some "basic_sr_flag") (SzInt 1%Z) TInt FrNone DfNone (Some (ECmp CEq (EFld "basic_sub_alloc" 2) (EInt 1%Z))) false 32%N false None 0%Z false);
      (* pynitf/nitf_des_cscsdb.py:62 *) RField (Build_fdesc (Some "basic_sr_spdcf") (SzInt 2%Z) TInt FrNone DfNone (Some (EAnd (ECmp CEq (EFld "basic_sub_alloc" 2) (EInt 1%Z)) (ECmp CEq (EFld "basic_sr_flag" 2) (EInt 1%Z)))) false 32%N false None 0%Z false);
      (* pynitf/nitf_des_cscsdb.py:64 *) RField (Build_fdesc (Some "post_sub_alloc") (SzInt 1%Z) TInt FrNone DfNone None false 32%N false None 0%Z false);
      (* pynitf/nitf_des_cscsdb.py:65 *) RField (Build_fdesc (Some "post_start_date") (SzInt 8%Z) TStr FrNone DfNone (Some (ECmp CEq (EFld "post_sub_alloc" 2) (EInt 1%Z))) false 32%N false None 0%Z false);
      (* pynitf/nitf_des_cscsdb.py:67 *) RField (Build_fdesc (Some "post_start_time") (SzInt 15%Z) TFloat (FrF (FsPct false false false 15 9 false false)) DfNone (Some (ECmp CEq (EFld "post_sub_alloc" 2) (EInt 1%Z))) false 32%N false None 0%Z false);
      (* pynitf/nitf_des_cscsdb.py:70 *) RField (Build_fdesc (Some "post_dt") (SzInt 13%Z) TFloat (FrF (FsPct false false false 13 9 false false)) DfNone (Some (ECmp CEq (EFld "post_sub_alloc" 2) (EInt 1%Z))) false 32%N false None 0%Z false);
      (* pynitf/nitf_des_cscsdb.py:73 *) RField (Build_fdesc (Some "num_posts") (SzInt 3%Z) TInt FrNone DfNone (Some (ECmp CEq (EFld "post_sub_alloc" 2) (EInt 1%Z))) false 32%N false None 0%Z false);
      (* pynitf/nitf_des_cscsdb.py:75 *) RField (Build_fdesc (Some "common_posts_cov") (SzInt 1%Z) TInt FrNone DfNone (Some (ECmp CEq (EFld "post_sub_alloc" 2) (EInt 1%Z))) false 32%N false None 0%Z false);
      (* pynitf/nitf_des_cscsdb.py:78 *)
      RLoop (EIf (EAnd (ECmp CEq (EFld "post_sub_alloc" 2) (EInt 1%Z)) (ECmp CEq (EFld "common_posts_cov" 2) (EInt 1%Z))) (EHalfMul (EFld "num_adj_parm" 2) (EAdd (EFld "num_adj_parm" 2) (EInt 1%Z))) (EInt 0%Z)) [
        (* pynitf/nitf_des_cscsdb.py:79 *) RField (Build_fdesc (Some "errcov_c2") (SzInt 21%Z) TFloat (FrF (FsPct true false false 15 14 true false)) DfNone None false 32%N false None 0%Z false)];
      (* pynitf/nitf_des_cscsdb.py:82 *)
      RLoop (EIf (EAnd (ECmp CEq (EFld "post_sub_alloc" 2) (EInt 1%Z)) (ECmp CEq (EFld "common_posts_cov" 2) (EInt 0%Z))) (EFld "num_posts" 2) (EInt 0%Z)) [
        (* pynitf/nitf_des_cscsdb.py:83 *)
        RLoop (EIf (EAnd (ECmp CEq (EFld "post_sub_alloc" 2) (EInt 1%Z)) (ECmp CEq (EFld "common_posts_cov" 2) (EInt 0%Z))) (EHalfMul (EFld "num_adj_parm" 2) (EAdd (EFld "num_adj_parm" 2) (EInt 1%Z))) (EInt 0%Z)) [
          (* pynitf/nitf_des_cscsdb.py:86 *) RField (Build_fdesc (Some "errcov_c2_1") (SzInt 21%Z) TFloat (FrF (FsPct true false false 15 14 true false)) DfNone None false 32%N false None 0%Z false)]];
      (* pynitf/nitf_des_cscsdb.py:90 *) RField (Build_fdesc (Some "post_interp") (SzInt 1%Z) TInt FrNone DfNone (Some (ECmp CEq (EFld "post_sub_alloc" 2) (EInt 1%Z))) false 32%N false None 0%Z false);
      (* pynitf/nitf_des_cscsdb.py:92 *) RField (Build_fdesc (Some "post_pf_flag") (SzInt 1%Z) TInt FrNone DfNone (Some (ECmp CEq (EFld "post_sub_alloc" 2) (EInt 1%Z))) false 32%N false None 0%Z false);
      (* pynitf/nitf_des_cscsdb.py:93 *) RField (Build_fdesc (Some "num_post_pf") (SzInt 1%Z) TInt FrNone DfNone (Some (EAnd (ECmp CEq (EFld "post_sub_alloc" 2) (EInt 1%Z)) (ECmp CEq (EFld "post_pf_flag" 2) (EInt 1%Z)))) false 32%N false None 0%Z false);
      (* pynitf/nitf_des_cscsdb.py:94 *)
      RLoop (EFld "num_post_pf" 2) [
        (* pynitf/nitf_des_cscsdb.py:95 *) RField (Build_fdesc (Some "post_pf_spdcf") (SzInt 2%Z) TInt FrNone DfNone (Some (EAnd (ECmp CEq (EFld "post_sub_alloc" 2) (EInt 1%Z)) (ECmp CEq (EFld "post_pf_flag" 2) (EInt 1%Z)))) false 32%N false None 0%Z false);
        (* pynitf/nitf_des_cscsdb.py:96 *) RField (Build_fdesc (Some "num_pairings_post_pf") (SzInt 2%Z) TInt FrNone DfNone (Some (EAnd (ECmp CEq (EFld "post_sub_alloc" 2) (EInt 1%Z)) (ECmp CEq (EFld "post_pf_flag" 2) (EInt 1%Z)))) false 32%N false None 0%Z false);
        (* pynitf/nitf_des_cscsdb.py:97 *)
        RLoop (EFld "num_pairings_post_pf" 3) [
          (* pynitf/nitf_des_cscsdb.py:98 *) RField (Build_fdesc (Some "post_pf_spdcf_sensor") (SzInt 6%Z) TStr FrNone DfNone None false 32%N false None 0%Z false)]];
      (* pynitf/nitf_des_cscsdb.py:101 *) RField (Build_fdesc (Some "post_pl_flag") (SzInt 1%Z) TInt FrNone DfNone (Some (ECmp CEq (EFld "post_sub_alloc" 2) (EInt 1%Z))) false 32%N false None 0%Z false);
      (* pynitf/nitf_des_cscsdb.py:102 *) RField (Build_fdesc (Some "num_post_pl") (SzInt 1%Z) TInt FrNone DfNone (Some (EAnd (ECmp CEq (EFld "post_sub_alloc" 2) (EInt 1%Z)) (ECmp CEq (EFld "post_pl_flag" 2) (EInt 1%Z)))) false 32%N false None 0%Z false);
      (* pynitf/nitf_des_cscsdb.py:103 *)
      RLoop (EFld "num_post_pl" 2) [
        (* pynitf/nitf_des_cscsdb.py:104 *) RField (Build_fdesc (Some "post_pl_spdcf") (SzInt 2%Z) TInt FrNone DfNone (Some (EAnd (ECmp CEq (EFld "post_sub_alloc" 2) (EInt 1%Z)) (ECmp CEq (EFld "post_pl_flag" 2) (EInt 1%Z)))) false 32%N false None 0%Z false);
        (* pynitf/nitf_des_cscsdb.py:105 *) RField (Build_fdesc (Some "num_pairings_post_pl") (SzInt 2%Z) TInt FrNone DfNone (Some (EAnd (ECmp CEq (EFld "post_sub_alloc" 2) (EInt 1%Z)) (ECmp CEq (EFld "post_pl_flag" 2) (EInt 1%Z)))) false 32%N false None 0%Z false);
        (* pynitf/nitf_des_cscsdb.py:106 *)
        RLoop (EFld "num_pairings_post_pl" 3) [
          (* pynitf/nitf_des_cscsdb.py:107 *) RField (Build_fdesc (Some "post_pl_spdcf_sensor") (SzInt 6%Z) TStr FrNone DfNone None false 32%N false None 0%Z false)]];
      (* pynitf/nitf_des_cscsdb.py:110 *) RField (Build_fdesc (Some "post_sr_flag") (SzInt 1%Z) TInt FrNone DfNone (Some (ECmp CEq (EFld "post_sub_alloc" 2) (EInt 1%Z))) false 32%N false None 0%Z false);
      (* pynitf/nitf_des_cscsdb.py:111 *) RField (Build_fdesc (Some "post_sr_spdcf") (SzInt 2%Z) TInt FrNone DfNone (Some (EAnd (ECmp CEq (EFld "post_sub_alloc" 2) (EInt 1%Z)) (ECmp CEq (EFld "post_sr_flag" 2) (EInt 1%Z)))) false 32%N false None 0%Z false);
      (* pynitf/nitf_des_cscsdb.py:112 *) RField (Build_fdesc (Some "post_corr") (SzInt 1%Z) TInt FrNone DfNone (Some (EAnd (ECmp CEq (EFld "post_sub_alloc" 2) (EInt 1%Z)) (ECmp CEq (EFld "post_sr_flag" 2) (EInt 1%Z)))) false 32%N false None 0%Z false)]];
  (* pynitf/nitf_des_cscsdb.py:115 *) RField (Build_fdesc (Some "io_cal_ap") (SzInt 1%Z) TInt FrNone DfNone None false 32%N false None 0%Z false);
  (* pynitf/nitf_des_cscsdb.py:116 *) RField (Build_fdesc (Some "num_sets_cal_ap") (SzInt 2%Z) TInt FrNone DfNone (Some (ECmp CEq (EFld "io_cal_ap" 0) (EInt 1%Z))) false 32%N false None 0%Z false);
  (* pynitf/nitf_des_cscsdb.py:117 *)
  RLoop (EIf (ECmp CEq (EFld "io_cal_ap" 0) (EInt 1%Z)) (EFld "num_sets_cal_ap" 0) (EInt 0%Z)) [
    (* pynitf/nitf_des_cscsdb.py:118 *) RField (Build_fdesc (Some "focal_length_cal") (SzInt 11%Z) TFloat (FrF (FsPct false false false 11 8 false false)) DfNone None false 32%N false None 0%Z false)];
  (* pynitf/nitf_des_cscsdb.py:120 *) RField (Build_fdesc (Some "ncal_cpg") (SzInt 2%Z) TInt FrNone DfNone (Some (ECmp CEq (EFld "io_cal_ap" 0) (EInt 1%Z))) false 32%N false None 0%Z false);
  (* pynitf/nitf_des_cscsdb.py:121 *)
  RLoop (EIf (ECmp CEq (EFld "io_cal_ap" 0) (EInt 1%Z)) (EFld "ncal_cpg" 0) (EInt 0%Z)) [
    (* pynitf/nitf_des_cscsdb.py:122 *) RField (Build_fdesc (Some "corr_ref_date_io") (SzInt 8%Z) TStr FrNone DfNone None false 32%N false None 0%Z false);
    (* pynitf/nitf_des_cscsdb.py:123 *) RField (Build_fdesc (Some "corr_ref_time_io") (SzInt 16%Z) TFloat (FrF (FsPct false true false 16 9 false false)) DfNone None false 32%N false None 0%Z false);
    (* pynitf/nitf_des_cscsdb.py:124 *) RField (Build_fdesc (Some "n1cal") (SzInt 2%Z) TInt FrNone DfNone None false 32%N false None 0%Z false);
    (* pynitf/nitf_des_cscsdb.py:125 *)
    RLoop (EIf (ECmp CEq (EFld "io_cal_ap" 0) (EInt 1%Z)) (EFld "n1cal" 1) (EInt 0%Z)) [
      (* pynitf/nitf_des_cscsdb.py:126 *) RField (Build_fdesc (Some "cal_ap_id") (SzInt 2%Z) TInt FrNone DfNone None false 32%N false None 0%Z false)];
    (* pynitf/nitf_des_cscsdb.py:128 *)
    RLoop (EIf (ECmp CEq (EFld "io_cal_ap" 0) (EInt 1%Z)) (EFld "num_sets_cal_ap" 0) (EInt 0%Z)) [
      (* pynitf/nitf_des_cscsdb.py:129 *)
      RLoop (EIf (ECmp CEq (EFld "io_cal_ap" 0) (EInt 1%Z)) (EHalfMul (EFld "n1cal" 1) (EAdd (EFld "n1cal" 1) (EInt 1%Z))) (EInt 0%Z)) [
        (* pynitf/nitf_des_cscsdb.py:130 *) RField (Build_fdesc (Some "errcov_c3") (SzInt 21%Z) TFloat (FrF (FsPct true false false 15 14 true false)) DfNone None false 32%N false None 0%Z false)]];
    (* pynitf/nitf_des_cscsdb.py:133 *) RField (Build_fdesc (Some "cal_interp") (SzInt 1%Z) TInt FrNone DfNone None false 32%N false None 0%Z false);
    (* pynitf/nitf_des_cscsdb.py:134 *) RField (Build_fdesc (Some "spdcf_id_time") (SzInt 2%Z) TInt FrNone DfNone None false 32%N false None 0%Z false);
    (* pynitf/nitf_des_cscsdb.py:135 *) RField (Build_fdesc (Some "spdcf_id_fl") (SzInt 2%Z) TInt FrNone DfNone None false 32%N false None 0%Z false)];
  (* pynitf/nitf_des_cscsdb.py:137 *) RField (Build_fdesc (Some "ts_cal_ap") (SzInt 1%Z) TInt FrNone DfNone None false 32%N false None 0%Z false);
  (* pynitf/nitf_des_cscsdb.py:138 *) RField (Build_fdesc (Some "num_ts_grp") (SzInt 1%Z) TInt FrNone DfNone (Some (ECmp CEq (EFld "ts_cal_ap" 0) (EInt 1%Z))) false 32%N false None 0%Z false);
  (* pynitf/nitf_des_cscsdb.py:140 *) RField (Build_fdesc (Some "corr_ref_date_ts1") (SzInt 8%Z) TStr FrNone DfNone (Some (EAnd (ECmp CEq (EFld "ts_cal_ap" 0) (EInt 1%Z)) (ECmp CEq (EFld "num_ts_grp" 0) (EInt 1%Z)))) false 32%N false None 0%Z false);
  (* pynitf/nitf_des_cscsdb.py:142 *) RField (Build_fdesc (Some "corr_ref_time_ts1") (SzInt 16%Z) TFloat (FrF (FsPct false true false 16 9 false false)) DfNone (Some (EAnd (ECmp CEq (EFld "ts_cal_ap" 0) (EInt 1%Z)) (ECmp CEq (EFld "num_ts_grp" 0) (EInt 1%Z)))) false 32%N false None 0%Z false);
  (* pynitf/nitf_des_cscsdb.py:145 *) RField (Build_fdesc (Some "tsrr") (SzInt 21%Z) TFloat (FrF (FsPct true false false 15 14 true false)) DfNone (Some (EAnd (ECmp CEq (EFld "ts_cal_ap" 0) (EInt 1%Z)) (ECmp CEq (EFld "num_ts_grp" 0) (EInt 1%Z)))) false 32%N false None 0%Z false);
  (* pynitf/nitf_des_cscsdb.py:148 *) RField (Build_fdesc (Some "tsrc") (SzInt 21%Z) TFloat (FrF (FsPct true false false 15 14 true false)) DfNone (Some (EAnd (ECmp CEq (EFld "ts_cal_ap" 0) (EInt 1%Z)) (ECmp CEq (EFld "num_ts_grp" 0) (EInt 1%Z)))) false 32%N false None 0%Z false);
  (* pynitf/nitf_des_cscsdb.py:151 *) RField (Build_fdesc (Some "tsrc") (SzInt 21%Z) TFloat (FrF (FsPct true false false 15 14 true false)) DfNone (Some (EAnd (ECmp CEq (EFld "ts_cal_ap" 0) (EInt 1%Z)) (ECmp CEq (EFld "num_ts_grp" 0) (EInt 1%Z)))) false 32%N false None 0%Z false);
  (* pynitf/nitf_des_cscsdb.py:154 *) RField (Build_fdesc (Some "ts_spdcf1") (SzInt 2%Z) TInt FrNone DfNone (Some (EAnd (ECmp CEq (EFld "ts_cal_ap" 0) (EInt 1%Z)) (ECmp CEq (EFld "num_ts_grp" 0) (EInt 1%Z)))) false 32%N false None 0%Z false);
  (* pynitf/nitf_des_cscsdb.py:156 *) RField (Build_fdesc (Some "corr_ref_date_tsp2") (SzInt 8%Z) TStr FrNone DfNone (Some (EAnd (ECmp CEq (EFld "ts_cal_ap" 0) (EInt 1%Z)) (ECmp CEq (EFld "num_ts_grp" 0) (EInt 2%Z)))) false 32%N false None 0%Z false);
  (* pynitf/nitf_des_cscsdb.py:158 *) RField (Build_fdesc (Some "corr_ref_time_tsp2") (SzInt 16%Z) TFloat (FrF (FsPct false true false 16 9 false false)) DfNone (Some (EAnd (ECmp CEq (EFld "ts_cal_ap" 0) (EInt 1%Z)) (ECmp CEq (EFld "num_ts_grp" 0) (EInt 2%Z)))) false 32%N false None 0%Z false);
  (* pynitf/nitf_des_cscsdb.py:161 *) RField (Build_fdesc (Some "ts_pos_cov2") (SzInt 21%Z) TFloat (FrF (FsPct true false false 15 14 true false)) DfNone (Some (EAnd (ECmp CEq (EFld "ts_cal_ap" 0) (EInt 1%Z)) (ECmp CEq (EFld "num_ts_grp" 0) (EInt 2%Z)))) false 32%N false None 0%Z false);
  (* pynitf/nitf_des_cscsdb.py:164 *) RField (Build_fdesc (Some "ts_pos_spdcf2") (SzInt 2%Z) TInt FrNone DfNone (Some (EAnd (ECmp CEq (EFld "ts_cal_ap" 0) (EInt 1%Z)) (ECmp CEq (EFld "num_ts_grp" 0) (EInt 2%Z)))) false 32%N false None 0%Z false);
  (* pynitf/nitf_des_cscsdb.py:166 *) RField (Build_fdesc (Some "corr_ref_date_tsa2") (SzInt 8%Z) TStr FrNone DfNone (Some (EAnd (ECmp CEq (EFld "ts_cal_ap" 0) (EInt 1%Z)) (ECmp CEq (EFld "num_ts_grp" 0) (EInt 2%Z)))) false 32%N false None 0%Z false);
  (* pynitf/nitf_des_cscsdb.py:168 *) RField (Build_fdesc (Some "corr_ref_time_tsa2") (SzInt 16%Z) TFloat (FrF (FsPct false true false 16 9 false false)) DfNone (Some (EAnd (ECmp CEq (EFld "ts_cal_ap" 0) (EInt 1%Z)) (ECmp CEq (EFld "num_ts_grp" 0) (EInt 2%Z)))) false 32%N false None 0%Z false);
  (* pynitf/nitf_des_cscsdb.py:171 *) RField (Build_fdesc (Some "ts_att_cov2") (SzInt 21%Z) TFloat (FrF (FsPct true false false 15 14 true false)) DfNone (Some (EAnd (ECmp CEq (EFld "ts_cal_ap" 0) (EInt 1%Z)) (ECmp CEq (EFld "num_ts_grp" 0) (EInt 2%Z)))) false 32%N false None 0%Z false);
  (* pynitf/nitf_des_cscsdb.py:174 *) RField (Build_fdesc (Some "ts_att_spdcf2") (SzInt 2%Z) TInt FrNone DfNone (Some (EAnd (ECmp CEq (EFld "ts_cal_ap" 0) (EInt 1%Z)) (ECmp CEq (EFld "num_ts_grp" 0) (EInt 2%Z)))) false 32%N false None 0%Z false);
  (* pynitf/nitf_des_cscsdb.py:176 *) RField (Build_fdesc (Some "corr_ref_date_ts3") (SzInt 8%Z) TStr FrNone DfNone (Some (EAnd (ECmp CEq (EFld "ts_cal_ap" 0) (EInt 1%Z)) (ECmp CEq (EFld "num_ts_grp" 0) (EInt 3%Z)))) false 32%N false None 0%Z false);
  (* pynitf/nitf_des_cscsdb.py:178 *) RField (Build_fdesc (Some "corr_ref_time_ts3") (SzInt 16%Z) TFloat (FrF (FsPct false true false 16 9 false false)) DfNone (Some (EAnd (ECmp CEq (EFld "ts_cal_ap" 0) (EInt 1%Z)) (ECmp CEq (EFld "num_ts_grp" 0) (EInt 3%Z)))) false 32%N false None 0%Z false);
  (* pynitf/nitf_des_cscsdb.py:181 *) RField (Build_fdesc (Some "ts_pos_cov3") (SzInt 21%Z) TFloat (FrF (FsPct true false false 15 14 true false)) DfNone (Some (EAnd (ECmp CEq (EFld "ts_cal_ap" 0) (EInt 1%Z)) (ECmp CEq (EFld "num_ts_grp" 0) (EInt 3%Z)))) false 32%N false None 0%Z false);
  (* pynitf/nitf_des_cscsdb.py:184 *) RField (Build_fdesc (Some "ts_pos_att_cov3") (SzInt 21%Z) TFloat (FrF (FsPct true false false 15 14 true false)) DfNone (Some (EAnd (ECmp CEq (EFld "ts_cal_ap" 0) (EInt 1%Z)) (ECmp CEq (EFld "num_ts_grp" 0) (EInt 3%Z)))) false 32%N false None 0%Z false);
  (* pynitf/nitf_des_cscsdb.py:187 *) RField (Build_fdesc (Some "ts_pos_fl_cov3") (SzInt 21%Z) TFloat (FrF (FsPct true false false 15 14 true false)) DfNone (Some (EAnd (ECmp CEq (EFld "ts_cal_ap" 0) (EInt 1%Z)) (ECmp CEq (EFld "num_ts_grp" 0) (EInt 3%Z)))) false 32%N false None 0%Z false);
  (* pynitf/nitf_des_cscsdb.py:190 *) RField (Build_fdesc (Some "ts_att_cov3") (SzInt 21%Z) TFloat (FrF (FsPct true false false 15 14 true false)) DfNone (Some (EAnd (ECmp CEq (EFld "ts_cal_ap" 0) (EInt 1%Z)) (ECmp CEq (EFld "num_ts_grp" 0) (EInt 3%Z)))) false 32%N false None 0%Z false);
  (* pynitf/nitf_des_cscsdb.py:193 *) RField (Build_fdesc (Some "ts_att_fl_cov3") (SzInt 21%Z) TFloat (FrF (FsPct true false false 15 14 true false)) DfNone (Some (EAnd (ECmp CEq (EFld "ts_cal_ap" 0) (EInt 1%Z)) (ECmp CEq (EFld "num_ts_grp" 0) (EInt 3%Z)))) false 32%N false None 0%Z false);
  (* pynitf/nitf_des_cscsdb.py:196 *) RField (Build_fdesc (Some "ts_fl_cov3") (SzInt 21%Z) TFloat (FrF (FsPct true false false 15 14 true false)) DfNone (Some (EAnd (ECmp CEq (EFld "ts_cal_ap" 0) (EInt 1%Z)) (ECmp CEq (EFld "num_ts_grp" 0) (EInt 3%Z)))) false 32%N false None 0%Z false);
  (* pynitf/nitf_des_cscsdb.py:199 *) RField (Build_fdesc (Some "ts_spdcf3") (SzInt 2%Z) TInt FrNone DfNone (Some (EAnd (ECmp CEq (EFld "ts_cal_ap" 0) (EInt 1%Z)) (ECmp CEq (EFld "num_ts_grp" 0) (EInt 3%Z)))) false 32%N false None 0%Z false);
  (* pynitf/nitf_des_cscsdb.py:201 *) RField (Build_fdesc (Some "corr_ref_date_tspa4") (SzInt 8%Z) TStr FrNone DfNone (Some (EAnd (ECmp CEq (EFld "ts_cal_ap" 0) (EInt 1%Z)) (ECmp CEq (EFld "num_ts_grp" 0) (EInt 4%Z)))) false 32%N false None 0%Z false);
  (* pynitf/nitf_des_cscsdb.py:203 *) RField (Build_fdesc (Some "corr_ref_time_tspa4") (SzInt 16%Z) TFloat (FrF (FsPct false true false 16 9 false false)) DfNone (Some (EAnd (ECmp CEq (EFld "ts_cal_ap" 0) (EInt 1%Z)) (ECmp CEq (EFld "num_ts_grp" 0) (EInt 4%Z)))) false 32%N false None 0%Z false);
  (* pynitf/nitf_des_cscsdb.py:206 *) RField (Build_fdesc (Some "ts_pos_cov4") (SzInt 21%Z) TFloat (FrF (FsPct true false false 15 14 true false)) DfNone (Some (EAnd (ECmp CEq (EFld "ts_cal_ap" 0) (EInt 1%Z)) (ECmp CEq (EFld "num_ts_grp" 0) (EInt 4%Z)))) false 32%N false None 0%Z false);
  (* pynitf/nitf_des_cscsdb.py:209 *) RField (Build_fdesc (Some "ts_pos_att_cov4") (SzInt 21%Z) TFloat (FrF (FsPct true false false 15 14 true false)) DfNone (Some (EAnd (ECmp CEq (EFld "ts_cal_ap" 0) (EInt 1%Z)) (ECmp CEq (EFld "num_ts_grp" 0) (EInt 4%Z)))) false 32%N false None 0%Z false);
  (* pynitf/nitf_des_cscsdb.py:212 *) RField (Build_fdesc (Some "ts_att_cov4") (SzInt 21%Z) TFloat (FrF (FsPct true false false 15 14 true false)) DfNone (Some (EAnd (ECmp CEq (EFld "ts_cal_ap" 0) (EInt 1%Z)) (ECmp CEq (EFld "num_ts_grp" 0) (EInt 4%Z)))) false 32%N false None 0%Z false);
  (* pynitf/nitf_des_cscsdb.py:215 *) RField (Build_fdesc (Some "ts_pa_spdcf4") (SzInt 2%Z) TInt FrNone DfNone (Some (EAnd (ECmp CEq (EFld "ts_cal_ap" 0) (EInt 1%Z)) (ECmp CEq (EFld "num_ts_grp" 0) (EInt 4%Z)))) false 32%N false None 0%Z false);
  (* pynitf/nitf_des_cscsdb.py:218 *) RField (Build_fdesc (Some "corr_ref_date_tsfl4") (SzInt 8%Z) TStr FrNone DfNone (Some (EAnd (ECmp CEq (EFld "ts_cal_ap" 0) (EInt 1%Z)) (ECmp CEq (EFld "num_ts_grp" 0) (EInt 4%Z)))) false 32%N false None 0%Z false);
  (* pynitf/nitf_des_cscsdb.py:220 *) RField (Build_fdesc (Some "corr_ref_time_tsfl4") (SzInt 16%Z) TFloat (FrF (FsPct false true false 16 9 false false)) DfNone (Some (EAnd (ECmp CEq (EFld "ts_cal_ap" 0) (EInt 1%Z)) (ECmp CEq (EFld "num_ts_grp" 0) (EInt 4%Z)))) false 32%N false None 0%Z false);
  (* pynitf/nitf_des_cscsdb.py:223 *) RField (Build_fdesc (Some "ts_fl_cov4") (SzInt 21%Z) TFloat (FrF (FsPct true false false 15 14 true false)) DfNone (Some (EAnd (ECmp CEq (EFld "ts_cal_ap" 0) (EInt 1%Z)) (ECmp CEq (EFld "num_ts_grp" 0) (EInt 4%Z)))) false 32%N false None 0%Z false);
  (* pynitf/nitf_des_cscsdb.py:226 *) RField (Build_fdesc (Some "ts_fl_spdcf4") (SzInt 2%Z) TInt FrNone DfNone (Some (EAnd (ECmp CEq (EFld "ts_cal_ap" 0) (EInt 1%Z)) (ECmp CEq (EFld "num_ts_grp" 0) (EInt 4%Z)))) false 32%N false None 0%Z false);
  (* pynitf/nitf_des_cscsdb.py:228 *) RField (Build_fdesc (Some "corr_ref_date_tsp5") (SzInt 8%Z) TStr FrNone DfNone (Some (EAnd (ECmp CEq (EFld "ts_cal_ap" 0) (EInt 1%Z)) (ECmp CEq (EFld "num_ts_grp" 0) (EInt 5%Z)))) false 32%N false None 0%Z false);
  (* pynitf/nitf_des_cscsdb.py:230 *) RField (Build_fdesc (Some "corr_ref_time_tsp5") (SzInt 16%Z) TFloat (FrF (FsPct false true false 16 9 false false)) DfNone (Some (EAnd (ECmp CEq (EFld "ts_cal_ap" 0) (EInt 1%Z)) (ECmp CEq (EFld "num_ts_grp" 0) (EInt 5%Z)))) false 32%N false None 0%Z false);
  (* pynitf/nitf_des_cscsdb.py:233 *) RField (Build_fdesc (Some "ts_pos_cov5") (SzInt 21%Z) TFloat (FrF (FsPct true false false 15 14 true false)) DfNone (Some (EAnd (ECmp CEq (EFld "ts_cal_ap" 0) (EInt 1%Z)) (ECmp CEq (EFld "num_ts_grp" 0) (EInt 5%Z)))) false 32%N false None 0%Z false);
  (* pynitf/nitf_des_cscsdb.py:236 *) RField (Build_fdesc (Some "ts_pos_spdcf5") (SzInt 2%Z) TInt FrNone DfNone (Some (EAnd (ECmp CEq (EFld "ts_cal_ap" 0) (EInt 1%Z)) (ECmp CEq (EFld "num_ts_grp" 0) (EInt 5%Z)))) false 32%N false None 0%Z false);
  (* pynitf/nitf_des_cscsdb.py:238 *) RField (Build_fdesc (Some "corr_ref_date_tsa5") (SzInt 8%Z) TStr FrNone DfNone (Some (EAnd (ECmp CEq (EFld "ts_cal_ap" 0) (EInt 1%Z)) (ECmp CEq (EFld "num_ts_grp" 0) (EInt 5%Z)))) false 32%N false None 0%Z false);
  (* pynitf/nitf_des_cscsdb.py:240 *) RField (Build_fdesc (Some "corr_ref_time_tsa5") (SzInt 16%Z) TFloat (FrF (FsPct false true false 16 9 false false)) DfNone (Some (EAnd (ECmp CEq (EFld "ts_cal_ap" 0) (EInt 1%Z)) (ECmp CEq (EFld "num_ts_grp" 0) (EInt 5%Z)))) false 32%N false None 0%Z false);
  (* pynitf/nitf_des_cscsdb.py:243 *) RField (Build_fdesc (Some "ts_att_cov5") (SzInt 21%Z) TFloat (FrF (FsPct true false false 15 14 true false)) DfNone (Some (EAnd (ECmp CEq (EFld "ts_cal_ap" 0) (EInt 1%Z)) (ECmp CEq (EFld "num_ts_grp" 0) (EInt 5%Z)))) false 32%N false None 0%Z false);
  (* pynitf/nitf_des_cscsdb.py:246 *) RField (Build_fdesc (Some "ts_att_spdcf5") (SzInt 2%Z) TInt FrNone DfNone (Some (EAnd (ECmp CEq (EFld "ts_cal_ap" 0) (EInt 1%Z)) (ECmp CEq (EFld "num_ts_grp" 0) (EInt 5%Z)))) false 32%N false None 0%Z false);
  (* pynitf/nitf_des_cscsdb.py:248 *) RField (Build_fdesc (Some "corr_ref_date_tsfl5") (SzInt 8%Z) TStr FrNone DfNone (Some (EAnd (ECmp CEq (EFld "ts_cal_ap" 0) (EInt 1%Z)) (ECmp CEq (EFld "num_ts_grp" 0) (EInt 5%Z)))) false 32%N false None 0%Z false);
  (* pynitf/nitf_des_cscsdb.py:250 *) RField (Build_fdesc (Some "corr_ref_time_tsfl5") (SzInt 16%Z) TFloat (FrF (FsPct false true false 16 9 false false)) DfNone (Some (EAnd (ECmp CEq (EFld "ts_cal_ap" 0) (EInt 1%Z)) (ECmp CEq (EFld "num_ts_grp" 0) (EInt 5%Z)))) false 32%N false None 0%Z false);
  (* pynitf/nitf_des_cscsdb.py:253 *) RField (Build_fdesc (Some "ts_fl_cov5") (SzInt 21%Z) TFloat (FrF (FsPct true false false 15 14 true false)) DfNone (Some (EAnd (ECmp CEq (EFld "ts_cal_ap" 0) (EInt 1%Z)) (ECmp CEq (EFld "num_ts_grp" 0) (EInt 5%Z)))) false 32%N false None 0%Z false);
  (* pynitf/nitf_des_cscsdb.py:256 *) RField (Build_fdesc (Some "ts_fl_spdcf5") (SzInt 2%Z) TInt FrNone DfNone (Some (EAnd (ECmp CEq (EFld "ts_cal_ap" 0) (EInt 1%Z)) (ECmp CEq (EFld "num_ts_grp" 0) (EInt 5%Z)))) false 32%N false None 0%Z false);
  (* pynitf/nitf_des_cscsdb.py:258 *) RField (Build_fdesc (Some "ue_flag") (SzInt 1%Z) TInt FrNone DfNone None false 32%N false None 0%Z false);
  (* pynitf/nitf_des_cscsdb.py:259 *) RField (Build_fdesc (Some "line_dimension") (SzInt 3%Z) TInt FrNone DfNone (Some (ECmp CEq (EFld "ue_flag" 0) (EInt 1%Z))) false 32%N false None 0%Z false);
  (* pynitf/nitf_des_cscsdb.py:260 *) RField (Build_fdesc (Some "sample_dimension") (SzInt 2%Z) TInt FrNone DfNone (Some (ECmp CEq (EFld "ue_flag" 0) (EInt 1%Z))) false 32%N false None 0%Z false);
  (* pynitf/nitf_des_cscsdb.py:261 *)
  RLoop (EFld "line_dimension" 0) [
    (* pynitf/nitf_des_cscsdb.py:262 *)
    RLoop (EFld "sample_dimension" 0) [
      (* pynitf/nitf_des_cscsdb.py:263 *) RField (Build_fdesc (Some "urr") (SzInt 21%Z) TFloat (FrF (FsPct true false false 15 14 true false)) DfNone None false 32%N false None 0%Z false);
      (* pynitf/nitf_des_cscsdb.py:265 *) RField (Build_fdesc (Some "urc") (SzInt 21%Z) TFloat (FrF (FsPct true false false 15 14 true false)) DfNone None false 32%N false None 0%Z false);
      (* pynitf/nitf_des_cscsdb.py:267 *) RField (Build_fdesc (Some "ucc") (SzInt 21%Z) TFloat (FrF (FsPct true false false 15 14 true false)) DfNone None false 32%N false None 0%Z false)]];
  (* pynitf/nitf_des_cscsdb.py:271 *) RField (Build_fdesc (Some "line_spdcf") (SzInt 2%Z) TInt FrNone DfNone (Some (ECmp CEq (EFld "ue_flag" 0) (EInt 1%Z))) false 32%N false None 0%Z false);
  (* pynitf/nitf_des_cscsdb.py:272 *) RField (Build_fdesc (Some "sample_spdcf") (SzInt 2%Z) TInt FrNone DfNone (Some (ECmp CEq (EFld "ue_flag" 0) (EInt 1%Z))) false 32%N false None 0%Z false);
  (* pynitf/nitf_des_cscsdb.py:273 *) RField (Build_fdesc (Some "spdcf_flag") (SzInt 1%Z) TInt FrNone DfNone None false 32%N false None 0%Z false);
  (* pynitf/nitf_des_cscsdb.py:274 *) RField (Build_fdesc (Some "num_spdcf") (SzInt 2%Z) TInt FrNone DfNone (Some (ECmp CEq (EFld "spdcf_flag" 0) (EInt 1%Z))) false 32%N false None 0%Z false);
  (* pynitf/nitf_des_cscsdb.py:276 *)
  RLoop (EFld "num_spdcf" 0) [
    (* pynitf/nitf_des_cscsdb.py:277 *) RField (Build_fdesc (Some "spdcf_id") (SzInt 2%Z) TInt FrNone DfNone None false 32%N false None 0%Z false);
    (* pynitf/nitf_des_cscsdb.py:278 *) RField (Build_fdesc (Some "spdcf_p") (SzInt 2%Z) TInt FrNone DfNone None false 32%N false None 0%Z false);
    (* pynitf/nitf_des_cscsdb.py:279 *)
    RLoop (EFld "spdcf_p" 1) [
      (* pynitf/nitf_des_cscsdb.py:280 *) RField (Build_fdesc (Some "spdcf_fam") (SzInt 1%Z) TInt FrNone DfNone None false 32%N false None 0%Z false);
      (* pynitf/nitf_des_cscsdb.py:281 *) RField (Build_fdesc (Some "spdcf_weight") (SzInt 5%Z) TFloat (FrF (FsPct false true false 5 3 false false)) DfNone None false 32%N false None 0%Z false);
      (* pynitf/nitf_des_cscsdb.py:283 *) RField (Build_fdesc (Some "fp_a") (SzInt 8%Z) TFloat (FrF (FsPct false false false 7 6 false false)) DfNone (Some (ECmp CEq (EFld "spdcf_fam" 2) (EInt 0%Z))) false 32%N false None 0%Z false);
      (* pynitf/nitf_des_cscsdb.py:286 *) RField (Build_fdesc (Some "fp_alpha") (SzInt 8%Z) TFloat (FrF (FsPct false false false 7 6 false false)) DfNone (Some (ECmp CEq (EFld "spdcf_fam" 2) (EInt 0%Z))) false 32%N false None 0%Z false);
      (* pynitf/nitf_des_cscsdb.py:289 *) RField (Build_fdesc (Some "fp_beta") (SzInt 9%Z) TFloat (FrF (FsPct false true false 9 6 false false)) DfNone (Some (ECmp CEq (EFld "spdcf_fam" 2) (EInt 0%Z))) false 32%N false None 0%Z false);
      (* pynitf/nitf_des_cscsdb.py:292 *) RField (Build_fdesc (Some "fp_t") (SzInt 21%Z) TFloat (FrF (FsPct false false false 15 14 true false)) DfNone (Some (ECmp CEq (EFld "spdcf_fam" 2) (EInt 0%Z))) false 32%N false None 0%Z false);
      (* pynitf/nitf_des_cscsdb.py:295 *) RField (Build_fdesc (Some "num_segs") (SzInt 2%Z) TInt FrNone DfNone (Some (ECmp CEq (EFld "spdcf_fam" 2) (EInt 1%Z))) false 32%N false None 0%Z false);
      (* pynitf/nitf_des_cscsdb.py:297 *)
      RLoop (EFld "num_segs" 2) [
        (* pynitf/nitf_des_cscsdb.py:298 *) RField (Build_fdesc (Some "pl_max_cor") (SzInt 8%Z) TFloat (FrF (FsPct false false false 7 6 false false)) DfNone None false 32%N false None 0%Z false);
        (* pynitf/nitf_des_cscsdb.py:299 *) RField (Build_fdesc (Some "pl_tau_max_cor") (SzInt 21%Z) TFloat (FrF (FsPct false false false 15 14 true false)) DfNone None false 32%N false None 0%Z false)];
      (* pynitf/nitf_des_cscsdb.py:301 *) RField (Build_fdesc (Some "dc_a") (SzInt 8%Z) TFloat (FrF (FsPct false false false 7 6 false false)) DfNone (Some (ECmp CEq (EFld "spdcf_fam" 2) (EInt 2%Z))) false 32%N false None 0%Z false);
      (* pynitf/nitf_des_cscsdb.py:304 *) RField (Build_fdesc (Some "dc_t") (SzInt 21%Z) TFloat (FrF (FsPct false false false 15 14 true false)) DfNone (Some (ECmp CEq (EFld "spdcf_fam" 2) (EInt 2%Z))) false 32%N false None 0%Z false);
      (* pynitf/nitf_des_cscsdb.py:307 *) RField (Build_fdesc (Some "dc_p") (SzInt 21%Z) TFloat (FrF (FsPct false false false 15 14 true false)) DfNone (Some (ECmp CEq (EFld "spdcf_fam" 2) (EInt 2%Z))) false 32%N false None 0%Z false)]];
  (* pynitf/nitf_des_cscsdb.py:312 *) RField (Build_fdesc (Some "direct_covariance_flag") (SzInt 1%Z) TInt FrNone DfNone None false 32%N false None 0%Z false);
  (* pynitf/nitf_des_cscsdb.py:313 *) RField (Build_fdesc (Some "dc_type") (SzInt 1%Z) TInt FrNone DfNone (Some (ECmp CEq (EFld "direct_covariance_flag" 0) (EInt 1%Z))) false 32%N false None 0%Z false);
  (* pynitf/nitf_des_cscsdb.py:315 *) RField (Build_fdesc (Some "num_para") (SzInt 4%Z) TInt FrNone DfNone (Some (ECmp CEq (EFld "dc_type" 0) (EInt 0%Z))) false 32%N false None 0%Z false);
  (* pynitf/nitf_des_cscsdb.py:317 *)
  RLoop (EFld "num_para" 0) [
    (* pynitf/nitf_des_cscsdb.py:318 *) RField (Build_fdesc (Some "ad") (SzInt 21%Z) TFloat (FrF (FsPct false false false 15 14 true false)) DfNone None false 32%N false None 0%Z false)];
  (* pynitf/nitf_des_cscsdb.py:321 *)
  RLoop (EIf (ECmp CEq (EFld "dc_type" 0) (EInt 0%Z)) (EHalfMul (EFld "num_para" 0) (EAdd (EFld "num_para" 0) (EInt 1%Z))) (EInt 0%Z)) [
    (* pynitf/nitf_des_cscsdb.py:322 *) RField (Build_fdesc (Some "errcov_c4") (SzInt 21%Z) TFloat (FrF (FsPct false false false 15 14 true false)) DfNone None false 32%N false None 0%Z false)];
  (* pynitf/nitf_des_cscsdb.py:325 *) RField (Build_fdesc (Some "reserved_len") (SzInt 9%Z) TInt FrNone (DfInt 0%Z) None false 32%N false None 0%Z false);
  (* pynitf/nitf_des_cscsdb.py:327 *) RField (Build_fdesc (Some "reserved") (SzExpr (EFld "reserved_len" 0)) (TData KBytes) FrNone DfNone None false 32%N false None 0%Z false)
].

(** pynitf/nitf_des_csephb.py, class DesCSEPHB (line 37), table at line 19. *)
Definition desc_DesCSEPHB : list row := [
  (* pynitf/nitf_des_csephb.py:19 *) RField (Build_fdesc (Some "qual_flag_eph") (SzInt 1%Z) TInt FrNone DfNone None false 32%N false None 0%Z false);
  (* pynitf/nitf_des_csephb.py:20 *) RField (Build_fdesc (Some "interp_type_eph") (SzInt 1%Z) TInt FrNone DfNone None false 32%N false None 0%Z false);
  (* pynitf/nitf_des_csephb.py:21 *) RField (Build_fdesc (Some "interp_order_eph") (SzInt 1%Z) TInt FrNone DfNone (Some (ECmp CEq (EFld "interp_type_eph" 0) (EInt 2%Z))) false 32%N false None 0%Z false);
  (* pynitf/nitf_des_csephb.py:22 *) RField (Build_fdesc (Some "ephem_flag") (SzInt 1%Z) TInt FrNone DfNone None false 32%N false None 0%Z false);
  (* pynitf/nitf_des_csephb.py:23 *) RField (Build_fdesc (Some "eci_ecf_ephem") (SzInt 1%Z) TInt FrNone DfNone None false 32%N false None 0%Z false);
  (* pynitf/nitf_des_csephb.py:24 *) RField (Build_fdesc (Some "dt_ephem") (SzInt 13%Z) TFloat (FrF (FsPct false true false 13 9 false false)) DfNone None false 32%N false None 0%Z false);
  (* pynitf/nitf_des_csephb.py:25 *) RField (Build_fdesc (Some "date_ephem") (SzInt 8%Z) TInt FrNone DfNone None false 32%N false None 0%Z false);
  (* pynitf/nitf_des_csephb.py:26 *) RField (Build_fdesc (Some "t0_ephem") (SzInt 16%Z) TFloat (FrF (FsPct false true false 16 9 false false)) DfNone None false 32%N false None 0%Z false);
  (* pynitf/nitf_des_csephb.py:27 *) RField (Build_fdesc (Some "num_ephem") (SzInt 5%Z) TInt FrNone DfNone None false 32%N false None 0%Z false);
  (* pynitf/nitf_des_csephb.py:28 *)
  RLoop (EFld "num_ephem" 0) [
    (* pynitf/nitf_des_csephb.py:29 *) RField (Build_fdesc (Some "ephem_x") (SzInt 12%Z) TFloat (FrF (FsPct true true false 12 2 false false)) DfNone None false 32%N false None 0%Z false);
    (* pynitf/nitf_des_csephb.py:30 *) RField (Build_fdesc (Some "ephem_y") (SzInt 12%Z) TFloat (FrF (FsPct true true false 12 2 false false)) DfNone None false 32%N false None 0%Z false);
    (* pynitf/nitf_des_csephb.py:31 *) RField (Build_fdesc (Some "ephem_z") (SzInt 12%Z) TFloat (FrF (FsPct true true false 12 2 false false)) DfNone None false 32%N false None 0%Z false)];
  (* pynitf/nitf_des_csephb.py:33 *) RField (Build_fdesc (Some "reserved_len") (SzInt 9%Z) TInt FrNone DfNone None false 32%N false None 0%Z false);
  (* pynitf/nitf_des_csephb.py:34 *) RField (Build_fdesc (Some "reserved") (SzExpr (EFld "reserved_len" 0)) (TData KBytes) FrNone DfNone None false 32%N false None 0%Z false)
].

(** pynitf/nitf_des_cssfab.py, class DesCSSFAB (line 147), table at line 19. *)
Definition desc_DesCSSFAB : list row := [
  (* pynitf/nitf_des_cssfab.py:19 *) RField (Build_fdesc (Some "sensor_type") (SzInt 1%Z) TStr FrNone DfNone None false 32%N false None 0%Z false);
  (* pynitf/nitf_des_cssfab.py:20 *) RField (Build_fdesc (Some "band_type") (SzInt 1%Z) TStr FrNone DfNone None false 32%N false None 0%Z false);
  (* pynitf/nitf_des_cssfab.py:21 *) RField (Build_fdesc (Some "band_wavelength") (SzInt 11%Z) TFloat (FrF (FsPct false true false 11 8 false false)) DfNone None false 32%N false None 0%Z false);
  (* pynitf/nitf_des_cssfab.py:23 *) RField (Build_fdesc (Some "n_bands") (SzInt 5%Z) TInt (FrD (Build_dfmt false true false 5)) DfNone None false 32%N false None 0%Z false);
  (* pynitf/nitf_des_cssfab.py:24 *)
  RLoop (EFld "n_bands" 0) [
    (* pynitf/nitf_des_cssfab.py:25 *) RField (Build_fdesc (Some "band_index") (SzInt 5%Z) TInt (FrD (Build_dfmt false true false 5)) DfNone None false 32%N false None 0%Z false);
    (* pynitf/nitf_des_cssfab.py:26 *) RField (Build_fdesc (Some "irepband") (SzInt 2%Z) TStr FrNone DfNone None false 32%N false None 0%Z false);
    (* pynitf/nitf_des_cssfab.py:27 *) RField (Build_fdesc (Some "isubcat") (SzInt 6%Z) TStr FrNone DfNone None false 32%N false None 0%Z false)];
  (* pynitf/nitf_des_cssfab.py:29 *) RField (Build_fdesc (Some "num_fl_pts") (SzInt 3%Z) TInt (FrD (Build_dfmt false true false 3)) DfNone None false 32%N false None 0%Z false);
  (* pynitf/nitf_des_cssfab.py:30 *) RField (Build_fdesc (Some "fl_interp") (SzInt 1%Z) TInt FrNone DfNone None false 32%N false None 0%Z false);
  (* pynitf/nitf_des_cssfab.py:31 *) RField (Build_fdesc (Some "foc_length_date") (SzInt 8%Z) TStr FrNone DfNone None false 32%N false None 0%Z false);
  (* pynitf/nitf_des_cssfab.py:32 *)
  RLoop (EFld "num_fl_pts" 0) [
    (* pynitf/nitf_des_cssfab.py:33 *) RField (Build_fdesc (Some "foc_length_time") (SzInt 15%Z) TFloat (FrF (FsPct false true false 15 9 false false)) DfNone None false 32%N false None 0%Z false);
    (* pynitf/nitf_des_cssfab.py:34 *) RField (Build_fdesc (Some "foc_length") (SzInt 11%Z) TFloat (FrF (FsPct false true false 11 8 false false)) DfNone None false 32%N false None 0%Z false)];
  (* pynitf/nitf_des_cssfab.py:36 *) RField (Build_fdesc (Some "ppoff_x") (SzInt 10%Z) TFloat (FrF (FsPct true true false 10 6 false false)) DfNone None false 32%N false None 0%Z false);
  (* pynitf/nitf_des_cssfab.py:37 *) RField (Build_fdesc (Some "ppoff_y") (SzInt 10%Z) TFloat (FrF (FsPct true true false 10 6 false false)) DfNone None false 32%N false None 0%Z false);
  (* pynitf/nitf_des_cssfab.py:38 *) RField (Build_fdesc (Some "ppoff_z") (SzInt 10%Z) TFloat (FrF (FsPct true true false 10 6 false false)) DfNone None false 32%N false None 0%Z false);
  (* pynitf/nitf_des_cssfab.py:39 *) RField (Build_fdesc (Some "angoff_x") (SzInt 10%Z) TFloat (FrF (FsPct true true false 10 7 false false)) DfNone None false 32%N false None 0%Z false);
  (* pynitf/nitf_des_cssfab.py:40 *) RField (Build_fdesc (Some "angoff_y") (SzInt 10%Z) TFloat (FrF (FsPct true true false 10 7 false false)) DfNone None false 32%N false None 0%Z false);
  (* pynitf/nitf_des_cssfab.py:41 *) RField (Build_fdesc (Some "angoff_z") (SzInt 10%Z) TFloat (FrF (FsPct true true false 10 7 false false)) DfNone None false 32%N false None 0%Z false);
  (* pynitf/nitf_des_cssfab.py:42 *) RField (Build_fdesc (Some "smpl_num_first") (SzInt 12%Z) TFloat (FrF (FsPct true true false 12 5 false false)) DfNone (Some (ECmp CEq (EFld "sensor_type" 0) (EStr (str "S")))) false 32%N false None 0%Z false);
  (* pynitf/nitf_des_cssfab.py:43 *) RField (Build_fdesc (Some "delta_smpl_pair") (SzInt 11%Z) TFloat (FrF (FsPct false true false 11 5 false false)) DfNone (Some (ECmp CEq (EFld "sensor_type" 0) (EStr (str "S")))) false 32%N false None 0%Z false);
  (* pynitf/nitf_des_cssfab.py:44 *) RField (Build_fdesc (Some "num_fa_pairs") (SzInt 3%Z) TInt (FrD (Build_dfmt false true false 3)) DfNone (Some (ECmp CEq (EFld "sensor_type" 0) (EStr (str "S")))) false 32%N false None 0%Z false);
  (* pynitf/nitf_des_cssfab.py:45 *)
  RLoop (EIf (ECmp CEq (EFld "sensor_type" 0) (EStr (str "S"))) (EFld "num_fa_pairs" 0) (EInt 0%Z)) [
    (* pynitf/nitf_des_cssfab.py:46 *) RField (Build_fdesc (Some "start_falign_x") (SzInt 11%Z) TFloat (FrF (FsPct true true false 11 7 false false)) DfNone None false 32%N false None 0%Z false);
    (* pynitf/nitf_des_cssfab.py:47 *) RField (Build_fdesc (Some "start_falign_y") (SzInt 11%Z) TFloat (FrF (FsPct true true false 11 7 false false)) DfNone None false 32%N false None 0%Z false);
    (* pynitf/nitf_des_cssfab.py:48 *) RField (Build_fdesc (Some "end_falign_x") (SzInt 11%Z) TFloat (FrF (FsPct true true false 11 7 false false)) DfNone None false 32%N false None 0%Z false);
    (* pynitf/nitf_des_cssfab.py:49 *) RField (Build_fdesc (Some "end_falign_y") (SzInt 11%Z) TFloat (FrF (FsPct true true false 11 7 false false)) DfNone None false 32%N false None 0%Z false)];
  (* pynitf/nitf_des_cssfab.py:51 *) RField (Build_fdesc (Some "num_sets_fa_data") (SzInt 1%Z) TInt FrNone DfNone (Some (ECmp CEq (EFld "sensor_type" 0) (EStr (str "F")))) false 32%N false None 0%Z false);
  (* pynitf/nitf_des_cssfab.py:53 *) RField (Build_fdesc (Some "field_angle_type") (SzInt 1%Z) TInt FrNone DfNone (Some (ECmp CEq (EFld "sensor_type" 0) (EStr (str "F")))) false 32%N false None 0%Z false);
  (* pynitf/nitf_des_cssfab.py:55 *) RField (Build_fdesc (Some "fa_interp") (SzInt 1%Z) TInt FrNone DfNone (Some (ECmp CEq (EFld "sensor_type" 0) (EStr (str "F")))) false 32%N false None 0%Z false);
  (* pynitf/nitf_des_cssfab.py:57 *)
  RLoop (EIf (EAnd (ECmp CEq (EFld "sensor_type" 0) (EStr (str "F"))) (ECmp CEq (EFld "field_angle_type" 0) (EInt 0%Z))) (EFld "num_sets_fa_data" 0) (EInt 0%Z)) [
    (* pynitf/nitf_des_cssfab.py:58 *) RField (Build_fdesc (Some "fl_cal") (SzInt 11%Z) TFloat (FrF (FsPct false true false 11 8 false false)) DfNone None false 32%N false None 0%Z false);
    (* pynitf/nitf_des_cssfab.py:60 *) RField (Build_fdesc (Some "number_fir_line") (SzInt 12%Z) TFloat (FrF (FsPct true true false 12 5 false false)) DfNone None false 32%N false None 0%Z false);
    (* pynitf/nitf_des_cssfab.py:62 *) RField (Build_fdesc (Some "delta_line") (SzInt 11%Z) TFloat (FrF (FsPct false true false 11 5 false false)) DfNone None false 32%N false None 0%Z false);
    (* pynitf/nitf_des_cssfab.py:64 *) RField (Build_fdesc (Some "num_fa_blocks_line") (SzInt 3%Z) TInt (FrD (Build_dfmt false true false 3)) DfNone None false 32%N false None 0%Z false);
    (* pynitf/nitf_des_cssfab.py:65 *) RField (Build_fdesc (Some "number_fir_samp") (SzInt 12%Z) TFloat (FrF (FsPct true true false 12 5 false false)) DfNone None false 32%N false None 0%Z false);
    (* pynitf/nitf_des_cssfab.py:67 *) RField (Build_fdesc (Some "delta_samp") (SzInt 11%Z) TFloat (FrF (FsPct false true false 11 5 false false)) DfNone None false 32%N false None 0%Z false);
    (* pynitf/nitf_des_cssfab.py:69 *) RField (Build_fdesc (Some "num_fa_blocks_samp") (SzInt 3%Z) TInt (FrD (Build_dfmt false true false 3)) DfNone None false 32%N false None 0%Z false);
    (* pynitf/nitf_des_cssfab.py:70 *)
    RLoop (EIf (EAnd (ECmp CEq (EFld "sensor_type" 0) (EStr (str "F"))) (ECmp CEq (EFld "field_angle_type" 0) (EInt 0%Z))) (EFld "num_fa_blocks_line" 1) (EInt 0%Z)) [
      (* pynitf/nitf_des_cssfab.py:71 *)
      RLoop (EIf (EAnd (ECmp CEq (EFld "sensor_type" 0) (EStr (str "F"))) (ECmp CEq (EFld "field_angle_type" 0) (EInt 0%Z))) (EFld "num_fa_blocks_samp" 1) (EInt 0%Z)) [
        (* pynitf/nitf_des_cssfab.py:72 *) RField (Build_fdesc (Some "fa_x1") (SzInt 11%Z) TFloat (FrF (FsPct true true false 11 7 false false)) DfNone None false 32%N false None 0%Z false);
        (* pynitf/nitf_des_cssfab.py:73 *) RField (Build_fdesc (Some "fa_y1") (SzInt 11%Z) TFloat (FrF (FsPct true true false 11 7 false false)) DfNone None false 32%N false None 0%Z false);
        (* pynitf/nitf_des_cssfab.py:74 *) RField (Build_fdesc (Some "fa_x2") (SzInt 11%Z) TFloat (FrF (FsPct true true false 11 7 false false)) DfNone None false 32%N false None 0%Z false);
        (* pynitf/nitf_des_cssfab.py:75 *) RField (Build_fdesc (Some "fa_y2") (SzInt 11%Z) TFloat (FrF (FsPct true true false 11 7 false false)) DfNone None false 32%N false None 0%Z false);
        (* pynitf/nitf_des_cssfab.py:76 *) RField (Build_fdesc (Some "fa_x3") (SzInt 11%Z) TFloat (FrF (FsPct true true false 11 7 false false)) DfNone None false 32%N false None 0%Z false);
        (* pynitf/nitf_des_cssfab.py:77 *) RField (Build_fdesc (Some "fa_y3") (SzInt 11%Z) TFloat (FrF (FsPct true true false 11 7 false false)) DfNone None false 32%N false None 0%Z false);
        (* pynitf/nitf_des_cssfab.py:78 *) RField (Build_fdesc (Some "fa_x4") (SzInt 11%Z) TFloat (FrF (FsPct true true false 11 7 false false)) DfNone None false 32%N false None 0%Z false);
        (* pynitf/nitf_des_cssfab.py:79 *) RField (Build_fdesc (Some "fa_y4") (SzInt 11%Z) TFloat (FrF (FsPct true true false 11 7 false false)) DfNone None false 32%N false None 0%Z false)]]];
  (* pynitf/nitf_des_cssfab.py:83 *) RField (Build_fdesc (Some "num_fp_arrays_line") (SzInt 3%Z) TInt FrNone DfNone (Some (EAnd (ECmp CEq (EFld "sensor_type" 0) (EStr (str "F"))) (ECmp CEq (EFld "field_angle_type" 0) (EInt 1%Z)))) false 32%N false None 0%Z false);
  (* pynitf/nitf_des_cssfab.py:84 *) RField (Build_fdesc (Some "num_fp_arrays_samp") (SzInt 3%Z) TInt FrNone DfNone (Some (EAnd (ECmp CEq (EFld "sensor_type" 0) (EStr (str "F"))) (ECmp CEq (EFld "field_angle_type" 0) (EInt 1%Z)))) false 32%N false None 0%Z false);
  (* pynitf/nitf_des_cssfab.py:85 *)
  RLoop (EIf (EAnd (ECmp CEq (EFld "sensor_type" 0) (EStr (str "F"))) (ECmp CEq (EFld "field_angle_type" 0) (EInt 1%Z))) (EFld "num_fp_arrays_line" 0) (EInt 0%Z)) [
    (* pynitf/nitf_des_cssfab.py:86 *)
    RLoop (EIf (EAnd (ECmp CEq (EFld "sensor_type" 0) (EStr (str "F"))) (ECmp CEq (EFld "field_angle_type" 0) (EInt 1%Z))) (EFld "num_fp_arrays_samp" 0) (EInt 0%Z)) [
      (* pynitf/nitf_des_cssfab.py:87 *) RField (Build_fdesc (Some "ls_fid_trans_t0") (SzInt 21%Z) TFloat (FrF (FsPct true false false 21 14 true true)) DfNone None false 32%N false None 0%Z false);
      (* pynitf/nitf_des_cssfab.py:88 *) RField (Build_fdesc (Some "ls_fid_trans_t1") (SzInt 21%Z) TFloat (FrF (FsPct true false false 21 14 true true)) DfNone None false 32%N false None 0%Z false);
      (* pynitf/nitf_des_cssfab.py:89 *) RField (Build_fdesc (Some "ls_fid_trans_t2") (SzInt 21%Z) TFloat (FrF (FsPct true false false 21 14 true true)) DfNone None false 32%N false None 0%Z false);
      (* pynitf/nitf_des_cssfab.py:90 *) RField (Build_fdesc (Some "ls_fid_trans_t3") (SzInt 21%Z) TFloat (FrF (FsPct true false false 21 14 true true)) DfNone None false 32%N false None 0%Z false);
      (* pynitf/nitf_des_cssfab.py:91 *) RField (Build_fdesc (Some "ls_fid_trans_t4") (SzInt 21%Z) TFloat (FrF (FsPct true false false 21 14 true true)) DfNone None false 32%N false None 0%Z false);
      (* pynitf/nitf_des_cssfab.py:92 *) RField (Build_fdesc (Some "ls_fid_trans_t5") (SzInt 21%Z) TFloat (FrF (FsPct true false false 21 14 true true)) DfNone None false 32%N false None 0%Z false);
      (* pynitf/nitf_des_cssfab.py:93 *) RField (Build_fdesc (Some "ls_fid_trans_t6") (SzInt 21%Z) TFloat (FrF (FsPct true false false 21 14 true true)) DfNone None false 32%N false None 0%Z false);
      (* pynitf/nitf_des_cssfab.py:94 *) RField (Build_fdesc (Some "ls_fid_trans_t7") (SzInt 21%Z) TFloat (FrF (FsPct true false false 21 14 true true)) DfNone None false 32%N false None 0%Z false)]];
  (* pynitf/nitf_des_cssfab.py:97 *)
  RLoop (EIf (EAnd (ECmp CEq (EFld "sensor_type" 0) (EStr (str "F"))) (ECmp CEq (EFld "field_angle_type" 0) (EInt 1%Z))) (EFld "num_sets_fa_data" 0) (EInt 0%Z)) [
    (* pynitf/nitf_des_cssfab.py:98 *) RField (Build_fdesc (Some "fl_cal_iop") (SzInt 11%Z) TFloat (FrF (FsPct false true false 11 8 false false)) DfNone None false 32%N false None 0%Z false);
    (* pynitf/nitf_des_cssfab.py:99 *) RField (Build_fdesc (Some "ppo_x0") (SzInt 21%Z) TFloat (FrF (FsPct true false false 21 14 true true)) DfNone None false 32%N false None 0%Z false);
    (* pynitf/nitf_des_cssfab.py:100 *) RField (Build_fdesc (Some "ppo_y0") (SzInt 21%Z) TFloat (FrF (FsPct true false false 21 14 true true)) DfNone None false 32%N false None 0%Z false);
    (* pynitf/nitf_des_cssfab.py:101 *) RField (Build_fdesc (Some "rld_k0") (SzInt 21%Z) TFloat (FrF (FsPct true false false 21 14 true true)) DfNone None false 32%N false None 0%Z false);
    (* pynitf/nitf_des_cssfab.py:102 *) RField (Build_fdesc (Some "rld_k1") (SzInt 21%Z) TFloat (FrF (FsPct true false false 21 14 true true)) DfNone None false 32%N false None 0%Z false);
    (* pynitf/nitf_des_cssfab.py:103 *) RField (Build_fdesc (Some "rld_k2") (SzInt 21%Z) TFloat (FrF (FsPct true false false 21 14 true true)) DfNone None false 32%N false None 0%Z false);
    (* pynitf/nitf_des_cssfab.py:104 *) RField (Build_fdesc (Some "rld_k3") (SzInt 21%Z) TFloat (FrF (FsPct true false false 21 14 true true)) DfNone None false 32%N false None 0%Z false);
    (* pynitf/nitf_des_cssfab.py:105 *) RField (Build_fdesc (Some "dcd_p1") (SzInt 21%Z) TFloat (FrF (FsPct true false false 21 14 true true)) DfNone None false 32%N false None 0%Z false);
    (* pynitf/nitf_des_cssfab.py:106 *) RField (Build_fdesc (Some "dcd_p2") (SzInt 21%Z) TFloat (FrF (FsPct true false false 21 14 true true)) DfNone None false 32%N false None 0%Z false);
    (* pynitf/nitf_des_cssfab.py:107 *) RField (Build_fdesc (Some "dcd_p3") (SzInt 21%Z) TFloat (FrF (FsPct true false false 21 14 true true)) DfNone None false 32%N false None 0%Z false);
    (* pynitf/nitf_des_cssfab.py:108 *) RField (Build_fdesc (Some "ad_a1") (SzInt 21%Z) TFloat (FrF (FsPct true false false 21 14 true true)) DfNone None false 32%N false None 0%Z false);
    (* pynitf/nitf_des_cssfab.py:109 *) RField (Build_fdesc (Some "ad_a2") (SzInt 21%Z) TFloat (FrF (FsPct true false false 21 14 true true)) DfNone None false 32%N false None 0%Z false);
    (* pynitf/nitf_des_cssfab.py:110 *) RField (Build_fdesc (Some "radius_of_validity") (SzInt 21%Z) TFloat (FrF (FsPct true false false 21 14 true true)) DfNone None false 32%N false None 0%Z false)];
  (* pynitf/nitf_des_cssfab.py:112 *) RField (Build_fdesc (Some "telescope_optics_flag") (SzInt 1%Z) TInt FrNone DfNone (Some (ECmp CEq (EFld "sensor_type" 0) (EStr (str "F")))) false 32%N false None 0%Z false);
  (* pynitf/nitf_des_cssfab.py:113 *) RField (Build_fdesc (Some "num_tele_sets_fa_data") (SzInt 1%Z) TInt FrNone DfNone (Some (EAnd (ECmp CEq (EFld "sensor_type" 0) (EStr (str "F"))) (ECmp CEq (EFld "telescope_optics_flag" 0) (EInt 1%Z)))) false 32%N false None 0%Z false);
  (* pynitf/nitf_des_cssfab.py:114 *) RField (Build_fdesc (Some "n_frames") (SzInt 4%Z) (TData (KInt false)) FrNone DfNone (Some (EAnd (ECmp CEq (EFld "sensor_type" 0) (EStr (str "F"))) (ECmp CEq (EFld "telescope_optics_flag" 0) (EInt 1%Z)))) false 32%N false None 0%Z true);
  (* pynitf/nitf_des_cssfab.py:117 *)
  RLoop (EIf (EAnd (ECmp CEq (EFld "sensor_type" 0) (EStr (str "F"))) (ECmp CEq (EFld "telescope_optics_flag" 0) (EInt 1%Z))) (EFld "n_frames" 0) (EInt 0%Z)) [
    (* pynitf/nitf_des_cssfab.py:118 *) RField (Build_fdesc (Some "tele_trans_t0") (SzInt 21%Z) TFloat (FrF (FsPct true false false 21 14 true true)) DfNone None false 32%N false None 0%Z false);
    (* pynitf/nitf_des_cssfab.py:119 *) RField (Build_fdesc (Some "tele_trans_t1") (SzInt 21%Z) TFloat (FrF (FsPct true false false 21 14 true true)) DfNone None false 32%N false None 0%Z false);
    (* pynitf/nitf_des_cssfab.py:120 *) RField (Build_fdesc (Some "tele_trans_t2") (SzInt 21%Z) TFloat (FrF (FsPct true false false 21 14 true true)) DfNone None false 32%N false None 0%Z false);
    (* pynitf/nitf_des_cssfab.py:121 *) RField (Build_fdesc (Some "tele_trans_t3") (SzInt 21%Z) TFloat (FrF (FsPct true false false 21 14 true true)) DfNone None false 32%N false None 0%Z false);
    (* pynitf/nitf_des_cssfab.py:122 *) RField (Build_fdesc (Some "tele_trans_t4") (SzInt 21%Z) TFloat (FrF (FsPct true false false 21 14 true true)) DfNone None false 32%N false None 0%Z false);
    (* pynitf/nitf_des_cssfab.py:123 *) RField (Build_fdesc (Some "tele_trans_t5") (SzInt 21%Z) TFloat (FrF (FsPct true false false 21 14 true true)) DfNone None false 32%N false None 0%Z false);
    (* pynitf/nitf_des_cssfab.py:124 *) RField (Build_fdesc (Some "tele_trans_t6") (SzInt 21%Z) TFloat (FrF (FsPct true false false 21 14 true true)) DfNone None false 32%N false None 0%Z false);
    (* pynitf/nitf_des_cssfab.py:125 *) RField (Build_fdesc (Some "tele_trans_t7") (SzInt 21%Z) TFloat (FrF (FsPct true false false 21 14 true true)) DfNone None false 32%N false None 0%Z false)];
  (* pynitf/nitf_des_cssfab.py:127 *)
  RLoop (EIf (EAnd (ECmp CEq (EFld "sensor_type" 0) (EStr (str "F"))) (ECmp CEq (EFld "telescope_optics_flag" 0) (EInt 1%Z))) (EFld "num_tele_sets_fa_data" 0) (EInt 0%Z)) [
    (* pynitf/nitf_des_cssfab.py:128 *) RField (Build_fdesc (Some "fl_cal_iop_tele") (SzInt 11%Z) TFloat (FrF (FsPct false true false 11 8 false false)) DfNone None false 32%N false None 0%Z false);
    (* pynitf/nitf_des_cssfab.py:129 *) RField (Build_fdesc (Some "ppo_x0_tele") (SzInt 21%Z) TFloat (FrF (FsPct true false false 21 14 true true)) DfNone None false 32%N false None 0%Z false);
    (* pynitf/nitf_des_cssfab.py:130 *) RField (Build_fdesc (Some "ppo_y0_tele") (SzInt 21%Z) TFloat (FrF (FsPct true false false 21 14 true true)) DfNone None false 32%N false None 0%Z false);
    (* pynitf/nitf_des_cssfab.py:131 *) RField (Build_fdesc (Some "rld_k0_tele") (SzInt 21%Z) TFloat (FrF (FsPct true false false 21 14 true true)) DfNone None false 32%N false None 0%Z false);
    (* pynitf/nitf_des_cssfab.py:132 *) RField (Build_fdesc (Some "rld_k1_tele") (SzInt 21%Z) TFloat (FrF (FsPct true false false 21 14 true true)) DfNone None false 32%N false None 0%Z false);
    (* pynitf/nitf_des_cssfab.py:133 *) RField (Build_fdesc (Some "rld_k2_tele") (SzInt 21%Z) TFloat (FrF (FsPct true false false 21 14 true true)) DfNone None false 32%N false None 0%Z false);
    (* pynitf/nitf_des_cssfab.py:134 *) RField (Build_fdesc (Some "rld_k3_tele") (SzInt 21%Z) TFloat (FrF (FsPct true false false 21 14 true true)) DfNone None false 32%N false None 0%Z false);
    (* pynitf/nitf_des_cssfab.py:135 *) RField (Build_fdesc (Some "dcd_p1_tele") (SzInt 21%Z) TFloat (FrF (FsPct true false false 21 14 true true)) DfNone None false 32%N false None 0%Z false);
    (* pynitf/nitf_des_cssfab.py:136 *) RField (Build_fdesc (Some "dcd_p2_tele") (SzInt 21%Z) TFloat (FrF (FsPct true false false 21 14 true true)) DfNone None false 32%N false None 0%Z false);
    (* pynitf/nitf_des_cssfab.py:137 *) RField (Build_fdesc (Some "dcd_p3_tele") (SzInt 21%Z) TFloat (FrF (FsPct true false false 21 14 true true)) DfNone None false 32%N false None 0%Z false);
    (* pynitf/nitf_des_cssfab.py:138 *) RField (Build_fdesc (Some "ad_a1_tele") (SzInt 21%Z) TFloat (FrF (FsPct true false false 21 14 true true)) DfNone None false 32%N false None 0%Z false);
    (* pynitf/nitf_des_cssfab.py:139 *) RField (Build_fdesc (Some "ad_a2_tele") (SzInt 21%Z) TFloat (FrF (FsPct true false false 21 14 true true)) DfNone None false 32%N false None 0%Z false);
    (* pynitf/nitf_des_cssfab.py:140 *) RField (Build_fdesc (Some "radius_of_validity_tele") (SzInt 21%Z) TFloat (FrF (FsPct true false false 21 14 true true)) DfNone None false 32%N false None 0%Z false)];
  (* pynitf/nitf_des_cssfab.py:142 *) RField (Build_fdesc (Some "reserved_len") (SzInt 9%Z) TInt FrNone (DfInt 0%Z) None false 32%N false None 0%Z false);
  (* pynitf/nitf_des_cssfab.py:143 *) RField (Build_fdesc (Some "reserved") (SzExpr (EFld "reserved_len" 0)) (TData KBytes) FrNone DfNone None false 32%N false None 0%Z false)
].

(** pynitf/nitf_des_ext_def_content.py, class DesExtContentHeader (line 34), table at line 28. *)
Definition desc_DesExtContentHeader : list row := [
  (* pynitf/nitf_des_ext_def_content.py:28 *) RField (Build_fdesc (Some "content_headers_len") (SzInt 4%Z) TInt FrNone DfNone None false 32%N false None 0%Z false);
  (* pynitf/nitf_des_ext_def_content.py:30 *) RField (Build_fdesc (Some "content_headers") (SzExpr (EFld "content_headers_len" 0)) (TData KBytes) FrNone DfNone None false 32%N false None 0%Z false)
].

(** All tables of this file, by class name.
    (all the descriptions of this file, each cited above; nitf_field.py:787-817.) *)
Definition all_DescsDes : list (string * list row) := [
  ("DesCSATTA", desc_DesCSATTA);
  ("DesCSATTB", desc_DesCSATTB);
  ("DesCSCSDB", desc_DesCSCSDB);
  ("DesCSEPHB", desc_DesCSEPHB);
  ("DesCSSFAB", desc_DesCSSFAB);
  ("DesExtContentHeader", desc_DesExtContentHeader)
].
