(** Field tables of pynitf, generated from the python sources by tools/gen_desc.py
    (file header, segment subheaders).  Each row cites the line it was translated from. *)
From Verif Require Import Base Engine.
Open Scope string_scope.

(** pynitf/nitf_des_associated_user_subheader.py, class DesAssociatedUserSubheader (line 23), table at line 12. *)
Definition desc_DesAssociatedUserSubheader : list row := [
  (* pynitf/nitf_des_associated_user_subheader.py:12 *) RField (Build_fdesc (Some "id") (SzInt 36%Z) TStr FrNone DfNone None false 32%N false None 0%Z false);
  (* pynitf/nitf_des_associated_user_subheader.py:13 *) RField (Build_fdesc (Some "numais") (SzInt 3%Z) TStr FrNone (DfStr (str "0")) None false 32%N false None 0%Z false);
  (* pynitf/nitf_des_associated_user_subheader.py:14 *)
  RLoop (EIf (ECmp CEq (EFld "numais" 0) (EStr (str "ALL"))) (EInt 0%Z) (EIntOf (EFld "numais" 0))) [
    (* pynitf/nitf_des_associated_user_subheader.py:15 *) RField (Build_fdesc (Some "aisdlvl") (SzInt 3%Z) TInt FrNone DfNone None false 32%N false None 0%Z false)];
  (* pynitf/nitf_des_associated_user_subheader.py:16 *) RField (Build_fdesc (Some "num_assoc_elem") (SzInt 3%Z) TInt FrNone DfNone None false 32%N false None 0%Z false);
  (* pynitf/nitf_des_associated_user_subheader.py:17 *)
  RLoop (EFld "num_assoc_elem" 0) [
    (* pynitf/nitf_des_associated_user_subheader.py:18 *) RField (Build_fdesc (Some "assoc_elem_id") (SzInt 36%Z) TStr FrNone DfNone None false 32%N false None 0%Z false)];
  (* pynitf/nitf_des_associated_user_subheader.py:19 *) RField (Build_fdesc (Some "reservedsubh_len") (SzInt 4%Z) TInt FrNone DfNone None false 32%N false None 0%Z false);
  (* pynitf/nitf_des_associated_user_subheader.py:20 *) RField (Build_fdesc (Some "reservedsubh") (SzExpr (EFld "reservedsubh_len" 0)) (TData KBytes) FrNone DfNone None false 32%N false None 0%Z false)
].

(** pynitf/nitf_des_subheader.py, class NitfDesSubheader (line 39), table at line 12. *)
Definition desc_NitfDesSubheader : list row := [
  (* pynitf/nitf_des_subheader.py:12 *) RField (Build_fdesc (Some "de") (SzInt 2%Z) TStr FrNone (DfStr (str "DE")) None false 32%N true None 0%Z false);
  (* pynitf/nitf_des_subheader.py:14 *) RField (Build_fdesc (Some "desid") (SzInt 25%Z) TStr FrNone DfNone None false 32%N false None 0%Z false);
  (* pynitf/nitf_des_subheader.py:15 *) RField (Build_fdesc (Some "dsver") (SzInt 2%Z) TInt FrNone DfNone None false 32%N false None 0%Z false);
  (* pynitf/nitf_des_subheader.py:16 *) RField (Build_fdesc (Some "desclas") (SzInt 1%Z) TStr FrNone (DfStr (str "U")) None false 32%N false None 0%Z false);
  (* pynitf/nitf_des_subheader.py:17 *) RField (Build_fdesc (Some "desclsy") (SzInt 2%Z) TStr FrNone DfNone None false 32%N false None 0%Z false);
  (* pynitf/nitf_des_subheader.py:18 *) RField (Build_fdesc (Some "descode") (SzInt 11%Z) TStr FrNone DfNone None false 32%N false None 0%Z false);
  (* pynitf/nitf_des_subheader.py:19 *) RField (Build_fdesc (Some "desctlh") (SzInt 2%Z) TStr FrNone DfNone None false 32%N false None 0%Z false);
  (* pynitf/nitf_des_subheader.py:20 *) RField (Build_fdesc (Some "desrel") (SzInt 20%Z) TStr FrNone DfNone None false 32%N false None 0%Z false);
  (* pynitf/nitf_des_subheader.py:21 *) RField (Build_fdesc (Some "desdctp") (SzInt 2%Z) TStr FrNone DfNone None false 32%N false None 0%Z false);
  (* pynitf/nitf_des_subheader.py:22 *) RField (Build_fdesc (Some "desdcdt") (SzInt 8%Z) TStr FrNone DfNone None false 32%N false None 0%Z false);
  (* pynitf/nitf_des_subheader.py:23 *) RField (Build_fdesc (Some "desdcxm") (SzInt 4%Z) TStr FrNone DfNone None false 32%N false None 0%Z false);
  (* pynitf/nitf_des_subheader.py:24 *) RField (Build_fdesc (Some "desdg") (SzInt 1%Z) TStr FrNone DfNone None false 32%N false None 0%Z false);
  (* pynitf/nitf_des_subheader.py:25 *) RField (Build_fdesc (Some "desdgdt") (SzInt 8%Z) TStr FrNone DfNone None false 32%N false None 0%Z false);
  (* pynitf/nitf_des_subheader.py:26 *) RField (Build_fdesc (Some "descltx") (SzInt 43%Z) TStr FrNone DfNone None false 32%N false None 0%Z false);
  (* pynitf/nitf_des_subheader.py:27 *) RField (Build_fdesc (Some "descatp") (SzInt 1%Z) TStr FrNone DfNone None false 32%N false None 0%Z false);
  (* pynitf/nitf_des_subheader.py:28 *) RField (Build_fdesc (Some "descaut") (SzInt 40%Z) TStr FrNone DfNone None false 32%N false None 0%Z false);
  (* pynitf/nitf_des_subheader.py:29 *) RField (Build_fdesc (Some "descrsn") (SzInt 1%Z) TStr FrNone DfNone None false 32%N false None 0%Z false);
  (* pynitf/nitf_des_subheader.py:30 *) RField (Build_fdesc (Some "dessrdt") (SzInt 8%Z) TStr FrNone DfNone None false 32%N false None 0%Z false);
  (* pynitf/nitf_des_subheader.py:31 *) RField (Build_fdesc (Some "desctln") (SzInt 15%Z) TStr FrNone DfNone None false 32%N false None 0%Z false);
  (* pynitf/nitf_des_subheader.py:32 *) RField (Build_fdesc (Some "desoflw") (SzInt 6%Z) TStr FrNone DfNone (Some (ECmp CEq (EFld "desid" 0) (EStr (str "TRE_OVERFLOW")))) false 32%N false None 0%Z false);
  (* pynitf/nitf_des_subheader.py:33 *) RField (Build_fdesc (Some "desitem") (SzInt 3%Z) TInt FrNone DfNone (Some (ECmp CEq (EFld "desid" 0) (EStr (str "TRE_OVERFLOW")))) false 32%N false None 0%Z false);
  (* pynitf/nitf_des_subheader.py:34 *) RField (Build_fdesc (Some "desshl") (SzInt 4%Z) TInt FrNone DfNone None false 32%N false None 0%Z false);
  (* pynitf/nitf_des_subheader.py:35 *) RField (Build_fdesc (Some "desshf") (SzExpr (EFld "desshl" 0)) (TData KBytes) FrNone DfNone None false 32%N false None 0%Z false)
].

(** pynitf/nitf_file_header.py, class NitfFileHeader (line 78), table at line 13. *)
Definition desc_NitfFileHeader : list row := [
  (* pynitf/nitf_file_header.py:13 *) RField (Build_fdesc (Some "fhdr") (SzInt 4%Z) TStr FrNone (DfStr (str "NITF")) None false 32%N true None 0%Z false);
  (* pynitf/nitf_file_header.py:15 *) RField (Build_fdesc (Some "fver") (SzInt 5%Z) TStr FrNone (DfStr (str "02.10")) None false 32%N true None 0%Z false);
  (* pynitf/nitf_file_header.py:17 *) RField (Build_fdesc (Some "clevel") (SzInt 2%Z) TInt FrNone (DfInt 3%Z) None false 32%N false None 0%Z false);
  (* pynitf/nitf_file_header.py:18 *) RField (Build_fdesc (Some "stype") (SzInt 4%Z) TStr FrNone (DfStr (str "BF01")) None false 32%N true None 0%Z false);
  (* pynitf/nitf_file_header.py:20 *) RField (Build_fdesc (Some "ostaid") (SzInt 10%Z) TStr FrNone DfNone None false 32%N false None 0%Z false);
  (* pynitf/nitf_file_header.py:21 *) RField (Build_fdesc (Some "fdt") (SzInt 14%Z) TStr FrNone DfNone None false 32%N false None 0%Z false);
  (* pynitf/nitf_file_header.py:22 *) RField (Build_fdesc (Some "ftitle") (SzInt 80%Z) TStr FrNone DfNone None false 32%N false None 0%Z false);
  (* pynitf/nitf_file_header.py:23 *) RField (Build_fdesc (Some "fsclas") (SzInt 1%Z) TStr FrNone (DfStr (str "U")) None false 32%N false None 0%Z false);
  (* pynitf/nitf_file_header.py:24 *) RField (Build_fdesc (Some "fsclsy") (SzInt 2%Z) TStr FrNone DfNone None false 32%N false None 0%Z false);
  (* pynitf/nitf_file_header.py:25 *) RField (Build_fdesc (Some "fscode") (SzInt 11%Z) TStr FrNone DfNone None false 32%N false None 0%Z false);
  (* pynitf/nitf_file_header.py:26 *) RField (Build_fdesc (Some "fsctlh") (SzInt 2%Z) TStr FrNone DfNone None false 32%N false None 0%Z false);
  (* pynitf/nitf_file_header.py:27 *) RField (Build_fdesc (Some "fsrel") (SzInt 20%Z) TStr FrNone DfNone None false 32%N false None 0%Z false);
  (* pynitf/nitf_file_header.py:28 *) RField (Build_fdesc (Some "fsdctp") (SzInt 2%Z) TStr FrNone DfNone None false 32%N false None 0%Z false);
  (* pynitf/nitf_file_header.py:29 *) RField (Build_fdesc (Some "fsdcdt") (SzInt 8%Z) TStr FrNone DfNone None false 32%N false None 0%Z false);
  (* pynitf/nitf_file_header.py:30 *) RField (Build_fdesc (Some "fsdcxm") (SzInt 4%Z) TStr FrNone DfNone None false 32%N false None 0%Z false);
  (* pynitf/nitf_file_header.py:31 *) RField (Build_fdesc (Some "fsdg") (SzInt 1%Z) TStr FrNone DfNone None false 32%N false None 0%Z false);
  (* pynitf/nitf_file_header.py:32 *) RField (Build_fdesc (Some "fsdgdt") (SzInt 8%Z) TStr FrNone DfNone None false 32%N false None 0%Z false);
  (* pynitf/nitf_file_header.py:33 *) RField (Build_fdesc (Some "fscltx") (SzInt 43%Z) TStr FrNone DfNone None false 32%N false None 0%Z false);
  (* pynitf/nitf_file_header.py:34 *) RField (Build_fdesc (Some "fscatp") (SzInt 1%Z) TStr FrNone DfNone None false 32%N false None 0%Z false);
  (* pynitf/nitf_file_header.py:35 *) RField (Build_fdesc (Some "fscaut") (SzInt 40%Z) TStr FrNone DfNone None false 32%N false None 0%Z false);
  (* pynitf/nitf_file_header.py:36 *) RField (Build_fdesc (Some "fscrsn") (SzInt 1%Z) TStr FrNone DfNone None false 32%N false None 0%Z false);
  (* pynitf/nitf_file_header.py:37 *) RField (Build_fdesc (Some "fssrdt") (SzInt 8%Z) TStr FrNone DfNone None false 32%N false None 0%Z false);
  (* pynitf/nitf_file_header.py:38 *) RField (Build_fdesc (Some "fsctln") (SzInt 15%Z) TStr FrNone DfNone None false 32%N false None 0%Z false);
  (* pynitf/nitf_file_header.py:39 *) RField (Build_fdesc (Some "fscop") (SzInt 5%Z) TInt FrNone DfNone None false 32%N false None 0%Z false);
  (* pynitf/nitf_file_header.py:40 *) RField (Build_fdesc (Some "fscpys") (SzInt 5%Z) TInt FrNone DfNone None false 32%N false None 0%Z false);
  (* pynitf/nitf_file_header.py:41 *) RField (Build_fdesc (Some "encryp") (SzInt 1%Z) TInt FrNone DfNone None false 32%N false None 0%Z false);
  (* pynitf/nitf_file_header.py:42 *) RField (Build_fdesc (Some "fbkgc") (SzInt 3%Z) TBytes FrNone (DfBytes [0%N; 0%N; 0%N]) None false 32%N false None 0%Z false);
  (* pynitf/nitf_file_header.py:43 *) RField (Build_fdesc (Some "oname") (SzInt 24%Z) TStr FrNone DfNone None false 32%N false None 0%Z false);
  (* pynitf/nitf_file_header.py:44 *) RField (Build_fdesc (Some "ophone") (SzInt 18%Z) TStr FrNone DfNone None false 32%N false None 0%Z false);
  (* pynitf/nitf_file_header.py:45 *) RField (Build_fdesc (Some "fl") (SzInt 12%Z) TInt FrNone DfNone None false 32%N false None 0%Z false);
  (* pynitf/nitf_file_header.py:46 *) RField (Build_fdesc (Some "hl") (SzInt 6%Z) TInt FrNone DfNone None false 32%N false None 0%Z false);
  (* pynitf/nitf_file_header.py:47 *) RField (Build_fdesc (Some "numi") (SzInt 3%Z) TInt FrNone DfNone None false 32%N false None 0%Z false);
  (* pynitf/nitf_file_header.py:48 *)
  RLoop (EFld "numi" 0) [
    (* pynitf/nitf_file_header.py:49 *) RField (Build_fdesc (Some "lish") (SzInt 6%Z) TInt FrNone DfNone None false 32%N false None 0%Z false);
    (* pynitf/nitf_file_header.py:50 *) RField (Build_fdesc (Some "li") (SzInt 10%Z) TInt FrNone DfNone None false 32%N false None 0%Z false)];
  (* pynitf/nitf_file_header.py:51 *) RField (Build_fdesc (Some "nums") (SzInt 3%Z) TInt FrNone DfNone None false 32%N false None 0%Z false);
  (* pynitf/nitf_file_header.py:52 *)
  RLoop (EFld "nums" 0) [
    (* pynitf/nitf_file_header.py:53 *) RField (Build_fdesc (Some "lssh") (SzInt 4%Z) TInt FrNone DfNone None false 32%N false None 0%Z false);
    (* pynitf/nitf_file_header.py:54 *) RField (Build_fdesc (Some "ls") (SzInt 6%Z) TInt FrNone DfNone None false 32%N false None 0%Z false)];
  (* pynitf/nitf_file_header.py:55 *) RField (Build_fdesc (Some "numx") (SzInt 3%Z) TInt FrNone DfNone None false 32%N false None 0%Z false);
  (* pynitf/nitf_file_header.py:56 *) RField (Build_fdesc (Some "numt") (SzInt 3%Z) TInt FrNone DfNone None false 32%N false None 0%Z false);
  (* pynitf/nitf_file_header.py:57 *)
  RLoop (EFld "numt" 0) [
    (* pynitf/nitf_file_header.py:58 *) RField (Build_fdesc (Some "ltsh") (SzInt 4%Z) TInt FrNone DfNone None false 32%N false None 0%Z false);
    (* pynitf/nitf_file_header.py:59 *) RField (Build_fdesc (Some "lt") (SzInt 5%Z) TInt FrNone DfNone None false 32%N false None 0%Z false)];
  (* pynitf/nitf_file_header.py:60 *) RField (Build_fdesc (Some "numdes") (SzInt 3%Z) TInt FrNone DfNone None false 32%N false None 0%Z false);
  (* pynitf/nitf_file_header.py:61 *)
  RLoop (EFld "numdes" 0) [
    (* pynitf/nitf_file_header.py:62 *) RField (Build_fdesc (Some "ldsh") (SzInt 4%Z) TInt FrNone DfNone None false 32%N false None 0%Z false);
    (* pynitf/nitf_file_header.py:63 *) RField (Build_fdesc (Some "ld") (SzInt 9%Z) TInt FrNone DfNone None false 32%N false None 0%Z false)];
  (* pynitf/nitf_file_header.py:64 *) RField (Build_fdesc (Some "numres") (SzInt 3%Z) TInt FrNone DfNone None false 32%N false None 0%Z false);
  (* pynitf/nitf_file_header.py:65 *)
  RLoop (EFld "numres" 0) [
    (* pynitf/nitf_file_header.py:66 *) RField (Build_fdesc (Some "lresh") (SzInt 4%Z) TInt FrNone DfNone None false 32%N false None 0%Z false);
    (* pynitf/nitf_file_header.py:67 *) RField (Build_fdesc (Some "lre") (SzInt 7%Z) TInt FrNone DfNone None false 32%N false None 0%Z false)];
  (* pynitf/nitf_file_header.py:68 *) RField (Build_fdesc (Some "udhdl") (SzInt 5%Z) TInt FrNone DfNone None false 32%N false None 0%Z false);
  (* pynitf/nitf_file_header.py:69 *) RField (Build_fdesc (Some "udhofl") (SzInt 3%Z) TInt FrNone DfNone (Some (ECmp CNe (EFld "udhdl" 0) (EInt 0%Z))) false 32%N false None 0%Z false);
  (* pynitf/nitf_file_header.py:70 *) RField (Build_fdesc (Some "udhd") (SzExpr (EFld "udhdl" 0)) (TData KBytes) FrNone DfNone None false 32%N false None 3%Z false);
  (* pynitf/nitf_file_header.py:72 *) RField (Build_fdesc (Some "xhdl") (SzInt 5%Z) TInt FrNone DfNone None false 32%N false None 0%Z false);
  (* pynitf/nitf_file_header.py:73 *) RField (Build_fdesc (Some "xhdlofl") (SzInt 3%Z) TInt FrNone DfNone (Some (ECmp CNe (EFld "xhdl" 0) (EInt 0%Z))) false 32%N false None 0%Z false);
  (* pynitf/nitf_file_header.py:74 *) RField (Build_fdesc (Some "xhd") (SzExpr (EFld "xhdl" 0)) (TData KBytes) FrNone DfNone None false 32%N false None 3%Z false)
].

(** pynitf/nitf_graphic_subheader.py, class NitfGraphicSubheader (line 51), table at line 15. *)
Definition desc_NitfGraphicSubheader : list row := [
  (* pynitf/nitf_graphic_subheader.py:15 *) RField (Build_fdesc (Some "sy") (SzInt 2%Z) TStr FrNone (DfStr (str "SY")) None false 32%N true None 0%Z false);
  (* pynitf/nitf_graphic_subheader.py:17 *) RField (Build_fdesc (Some "sid") (SzInt 10%Z) TStr FrNone DfNone None false 32%N false None 0%Z false);
  (* pynitf/nitf_graphic_subheader.py:18 *) RField (Build_fdesc (Some "sname") (SzInt 20%Z) TStr FrNone DfNone None false 32%N false None 0%Z false);
  (* pynitf/nitf_graphic_subheader.py:19 *) RField (Build_fdesc (Some "ssclas") (SzInt 1%Z) TStr FrNone (DfStr (str "U")) None false 32%N false None 0%Z false);
  (* pynitf/nitf_graphic_subheader.py:20 *) RField (Build_fdesc (Some "ssclsy") (SzInt 2%Z) TStr FrNone DfNone None false 32%N false None 0%Z false);
  (* pynitf/nitf_graphic_subheader.py:21 *) RField (Build_fdesc (Some "sscode") (SzInt 11%Z) TStr FrNone DfNone None false 32%N false None 0%Z false);
  (* pynitf/nitf_graphic_subheader.py:22 *) RField (Build_fdesc (Some "ssctlh") (SzInt 2%Z) TStr FrNone DfNone None false 32%N false None 0%Z false);
  (* pynitf/nitf_graphic_subheader.py:23 *) RField (Build_fdesc (Some "ssrel") (SzInt 20%Z) TStr FrNone DfNone None false 32%N false None 0%Z false);
  (* pynitf/nitf_graphic_subheader.py:24 *) RField (Build_fdesc (Some "ssdctp") (SzInt 2%Z) TStr FrNone DfNone None false 32%N false None 0%Z false);
  (* pynitf/nitf_graphic_subheader.py:25 *) RField (Build_fdesc (Some "ssdcdt") (SzInt 8%Z) TStr FrNone DfNone None false 32%N false None 0%Z false);
  (* pynitf/nitf_graphic_subheader.py:26 *) RField (Build_fdesc (Some "ssdcxm") (SzInt 4%Z) TStr FrNone DfNone None false 32%N false None 0%Z false);
  (* pynitf/nitf_graphic_subheader.py:27 *) RField (Build_fdesc (Some "ssdg") (SzInt 1%Z) TStr FrNone DfNone None false 32%N false None 0%Z false);
  (* pynitf/nitf_graphic_subheader.py:28 *) RField (Build_fdesc (Some "ssdgdt") (SzInt 8%Z) TStr FrNone DfNone None false 32%N false None 0%Z false);
  (* pynitf/nitf_graphic_subheader.py:29 *) RField (Build_fdesc (Some "sscltx") (SzInt 43%Z) TStr FrNone DfNone None false 32%N false None 0%Z false);
  (* pynitf/nitf_graphic_subheader.py:30 *) RField (Build_fdesc (Some "sscatp") (SzInt 1%Z) TStr FrNone DfNone None false 32%N false None 0%Z false);
  (* pynitf/nitf_graphic_subheader.py:31 *) RField (Build_fdesc (Some "sscaut") (SzInt 40%Z) TStr FrNone DfNone None false 32%N false None 0%Z false);
  (* pynitf/nitf_graphic_subheader.py:32 *) RField (Build_fdesc (Some "sscrsn") (SzInt 1%Z) TStr FrNone DfNone None false 32%N false None 0%Z false);
  (* pynitf/nitf_graphic_subheader.py:33 *) RField (Build_fdesc (Some "sssrdt") (SzInt 8%Z) TStr FrNone DfNone None false 32%N false None 0%Z false);
  (* pynitf/nitf_graphic_subheader.py:34 *) RField (Build_fdesc (Some "ssctln") (SzInt 15%Z) TStr FrNone DfNone None false 32%N false None 0%Z false);
  (* pynitf/nitf_graphic_subheader.py:35 *) RField (Build_fdesc (Some "encryp") (SzInt 1%Z) TInt FrNone DfNone None false 32%N false None 0%Z false);
  (* pynitf/nitf_graphic_subheader.py:36 *) RField (Build_fdesc (Some "sfmt") (SzInt 1%Z) TStr FrNone DfNone None false 32%N false None 0%Z false);
  (* pynitf/nitf_graphic_subheader.py:37 *) RField (Build_fdesc (Some "sstruct") (SzInt 13%Z) TInt FrNone DfNone None false 32%N false None 0%Z false);
  (* pynitf/nitf_graphic_subheader.py:38 *) RField (Build_fdesc (Some "sdlvl") (SzInt 3%Z) TInt FrNone DfNone None false 32%N false None 0%Z false);
  (* pynitf/nitf_graphic_subheader.py:39 *) RField (Build_fdesc (Some "salvl") (SzInt 3%Z) TInt FrNone DfNone None false 32%N false None 0%Z false);
  (* pynitf/nitf_graphic_subheader.py:40 *) RField (Build_fdesc (Some "sloc") (SzInt 10%Z) TStr FrNone (DfStr (str "0000000000")) None false 32%N false None 0%Z false);
  (* pynitf/nitf_graphic_subheader.py:41 *) RField (Build_fdesc (Some "sbnd1") (SzInt 10%Z) TInt FrNone DfNone None false 32%N false None 0%Z false);
  (* pynitf/nitf_graphic_subheader.py:42 *) RField (Build_fdesc (Some "scolor") (SzInt 1%Z) TStr FrNone DfNone None false 32%N false None 0%Z false);
  (* pynitf/nitf_graphic_subheader.py:43 *) RField (Build_fdesc (Some "sbnd2") (SzInt 10%Z) TInt FrNone DfNone None false 32%N false None 0%Z false);
  (* pynitf/nitf_graphic_subheader.py:44 *) RField (Build_fdesc (Some "sres2") (SzInt 2%Z) TInt FrNone DfNone None false 32%N false None 0%Z false);
  (* pynitf/nitf_graphic_subheader.py:45 *) RField (Build_fdesc (Some "sxshdl") (SzInt 5%Z) TInt FrNone DfNone None false 32%N false None 0%Z false);
  (* pynitf/nitf_graphic_subheader.py:46 *) RField (Build_fdesc (Some "sxofl") (SzInt 3%Z) TInt FrNone DfNone (Some (ECmp CNe (EFld "sxshdl" 0) (EInt 0%Z))) false 32%N false None 0%Z false);
  (* pynitf/nitf_graphic_subheader.py:47 *) RField (Build_fdesc (Some "sxshd") (SzExpr (EFld "sxshdl" 0)) (TData KBytes) FrNone DfNone None false 32%N false None 3%Z false)
].

(** pynitf/nitf_image_subheader.py, class NitfImageSubheader (line 91), table at line 15. *)
Definition desc_NitfImageSubheader : list row := [
  (* pynitf/nitf_image_subheader.py:15 *) RField (Build_fdesc (Some "im") (SzInt 2%Z) TStr FrNone (DfStr (str "IM")) None false 32%N true None 0%Z false);
  (* pynitf/nitf_image_subheader.py:17 *) RField (Build_fdesc (Some "iid1") (SzInt 10%Z) TStr FrNone DfNone None false 32%N false None 0%Z false);
  (* pynitf/nitf_image_subheader.py:18 *) RField (Build_fdesc (Some "idatim") (SzInt 14%Z) TStr FrNone DfNone None false 32%N false None 0%Z false);
  (* pynitf/nitf_image_subheader.py:19 *) RField (Build_fdesc (Some "tgtid") (SzInt 17%Z) TStr FrNone DfNone None false 32%N false None 0%Z false);
  (* pynitf/nitf_image_subheader.py:20 *) RField (Build_fdesc (Some "iid2") (SzInt 80%Z) TStr FrNone DfNone None false 32%N false None 0%Z false);
  (* pynitf/nitf_image_subheader.py:21 *) RField (Build_fdesc (Some "isclas") (SzInt 1%Z) TStr FrNone (DfStr (str "U")) None false 32%N false None 0%Z false);
  (* pynitf/nitf_image_subheader.py:22 *) RField (Build_fdesc (Some "isclsy") (SzInt 2%Z) TStr FrNone DfNone None false 32%N false None 0%Z false);
  (* pynitf/nitf_image_subheader.py:23 *) RField (Build_fdesc (Some "iscode") (SzInt 11%Z) TStr FrNone DfNone None false 32%N false None 0%Z false);
  (* pynitf/nitf_image_subheader.py:24 *) RField (Build_fdesc (Some "isctlh") (SzInt 2%Z) TStr FrNone DfNone None false 32%N false None 0%Z false);
  (* pynitf/nitf_image_subheader.py:25 *) RField (Build_fdesc (Some "isrel") (SzInt 20%Z) TStr FrNone DfNone None false 32%N false None 0%Z false);
  (* pynitf/nitf_image_subheader.py:26 *) RField (Build_fdesc (Some "isdctp") (SzInt 2%Z) TStr FrNone DfNone None false 32%N false None 0%Z false);
  (* pynitf/nitf_image_subheader.py:27 *) RField (Build_fdesc (Some "isdcdt") (SzInt 8%Z) TStr FrNone DfNone None false 32%N false None 0%Z false);
  (* pynitf/nitf_image_subheader.py:28 *) RField (Build_fdesc (Some "isdcxm") (SzInt 4%Z) TStr FrNone DfNone None false 32%N false None 0%Z false);
  (* pynitf/nitf_image_subheader.py:29 *) RField (Build_fdesc (Some "isdg") (SzInt 1%Z) TStr FrNone DfNone None false 32%N false None 0%Z false);
  (* pynitf/nitf_image_subheader.py:30 *) RField (Build_fdesc (Some "isdgdt") (SzInt 8%Z) TStr FrNone DfNone None false 32%N false None 0%Z false);
  (* pynitf/nitf_image_subheader.py:31 *) RField (Build_fdesc (Some "iscltx") (SzInt 43%Z) TStr FrNone DfNone None false 32%N false None 0%Z false);
  (* pynitf/nitf_image_subheader.py:32 *) RField (Build_fdesc (Some "iscatp") (SzInt 1%Z) TStr FrNone DfNone None false 32%N false None 0%Z false);
  (* pynitf/nitf_image_subheader.py:33 *) RField (Build_fdesc (Some "iscaut") (SzInt 40%Z) TStr FrNone DfNone None false 32%N false None 0%Z false);
  (* pynitf/nitf_image_subheader.py:34 *) RField (Build_fdesc (Some "iscrsn") (SzInt 1%Z) TStr FrNone DfNone None false 32%N false None 0%Z false);
  (* pynitf/nitf_image_subheader.py:35 *) RField (Build_fdesc (Some "issrdt") (SzInt 8%Z) TStr FrNone DfNone None false 32%N false None 0%Z false);
  (* pynitf/nitf_image_subheader.py:36 *) RField (Build_fdesc (Some "isctln") (SzInt 15%Z) TStr FrNone DfNone None false 32%N false None 0%Z false);
  (* pynitf/nitf_image_subheader.py:37 *) RField (Build_fdesc (Some "encryp") (SzInt 1%Z) TInt FrNone DfNone None false 32%N false None 0%Z false);
  (* pynitf/nitf_image_subheader.py:38 *) RField (Build_fdesc (Some "isorce") (SzInt 42%Z) TStr FrNone DfNone None false 32%N false None 0%Z false);
  (* pynitf/nitf_image_subheader.py:39 *) RField (Build_fdesc (Some "nrows") (SzInt 8%Z) TInt FrNone DfNone None false 32%N false None 0%Z false);
  (* pynitf/nitf_image_subheader.py:40 *) RField (Build_fdesc (Some "ncols") (SzInt 8%Z) TInt FrNone DfNone None false 32%N false None 0%Z false);
  (* pynitf/nitf_image_subheader.py:41 *) RField (Build_fdesc (Some "pvtype") (SzInt 3%Z) TStr FrNone (DfStr (str "INT")) None false 32%N false None 0%Z false);
  (* pynitf/nitf_image_subheader.py:42 *) RField (Build_fdesc (Some "irep") (SzInt 8%Z) TStr FrNone (DfStr (str "MONO")) None false 32%N false None 0%Z false);
  (* pynitf/nitf_image_subheader.py:43 *) RField (Build_fdesc (Some "icat") (SzInt 8%Z) TStr FrNone (DfStr (str "VIS")) None false 32%N false None 0%Z false);
  (* pynitf/nitf_image_subheader.py:44 *) RField (Build_fdesc (Some "abpp") (SzInt 2%Z) TInt FrNone (DfInt 8%Z) None false 32%N false None 0%Z false);
  (* pynitf/nitf_image_subheader.py:45 *) RField (Build_fdesc (Some "pjust") (SzInt 1%Z) TStr FrNone (DfStr (str "R")) None false 32%N false None 0%Z false);
  (* pynitf/nitf_image_subheader.py:46 *) RField (Build_fdesc (Some "icords") (SzInt 1%Z) TStr FrNone DfNone None false 32%N false None 0%Z false);
  (* pynitf/nitf_image_subheader.py:47 *) RField (Build_fdesc (Some "igeolo") (SzInt 60%Z) TStr FrNone DfNone (Some (ECmp CNe (ERstrip (EFld "icords" 0)) (EStr (str "")))) false 32%N false None 0%Z false);
  (* pynitf/nitf_image_subheader.py:48 *) RField (Build_fdesc (Some "nicom") (SzInt 1%Z) TInt FrNone DfNone None false 32%N false None 0%Z false);
  (* pynitf/nitf_image_subheader.py:49 *)
  RLoop (EFld "nicom" 0) [
    (* pynitf/nitf_image_subheader.py:50 *) RField (Build_fdesc (Some "icom") (SzInt 80%Z) TStr FrNone DfNone None false 32%N false None 0%Z false)];
  (* pynitf/nitf_image_subheader.py:51 *) RField (Build_fdesc (Some "ic") (SzInt 2%Z) TStr FrNone (DfStr (str "NC")) None false 32%N false None 0%Z false);
  (* pynitf/nitf_image_subheader.py:52 *) RField (Build_fdesc (Some "comrat") (SzInt 4%Z) TStr FrNone DfNone (Some (EIn true (EFld "ic" 0) [(EStr (str "NC")); (EStr (str "NM"))])) false 32%N false None 0%Z false);
  (* pynitf/nitf_image_subheader.py:53 *) RField (Build_fdesc (Some "nbands") (SzInt 1%Z) TInt FrNone (DfInt 1%Z) None false 32%N false None 0%Z false);
  (* pynitf/nitf_image_subheader.py:54 *) RField (Build_fdesc (Some "xbands") (SzInt 5%Z) TInt FrNone DfNone (Some (ECmp CEq (EFld "nbands" 0) (EInt 0%Z))) false 32%N false None 0%Z false);
  (* pynitf/nitf_image_subheader.py:55 *)
  RLoop (EIf (ECmp CGt (EFld "nbands" 0) (EInt 0%Z)) (EFld "nbands" 0) (EFld "xbands" 0)) [
    (* pynitf/nitf_image_subheader.py:56 *) RField (Build_fdesc (Some "irepband") (SzInt 2%Z) TStr FrNone (DfStr (str "M")) None false 32%N false None 0%Z false);
    (* pynitf/nitf_image_subheader.py:57 *) RField (Build_fdesc (Some "isubcat") (SzInt 6%Z) TStr FrNone DfNone None false 32%N false None 0%Z false);
    (* pynitf/nitf_image_subheader.py:58 *) RField (Build_fdesc (Some "ifc") (SzInt 1%Z) TStr FrNone (DfStr (str "N")) None false 32%N true None 0%Z false);
    (* pynitf/nitf_image_subheader.py:60 *) RField (Build_fdesc (Some "imflt") (SzInt 3%Z) TStr FrNone (DfStr (str "   ")) None false 32%N true None 0%Z false);
    (* pynitf/nitf_image_subheader.py:62 *) RField (Build_fdesc (Some "nluts") (SzInt 1%Z) TInt FrNone DfNone None false 32%N false None 0%Z false);
    (* pynitf/nitf_image_subheader.py:63 *) RField (Build_fdesc (Some "nelut") (SzInt 5%Z) TInt FrNone DfNone (Some (ECmp CNe (EFld "nluts" 1) (EInt 0%Z))) false 32%N false None 0%Z false);
    (* pynitf/nitf_image_subheader.py:64 *)
    RLoop (EFld "nluts" 1) [
      (* pynitf/nitf_image_subheader.py:65 *) RField (Build_fdesc (Some "lutd") (SzExpr (EFld "nelut" 1)) (TData KBytes) FrNone DfNone None false 32%N false None 0%Z false)]];
  (* pynitf/nitf_image_subheader.py:69 *) RField (Build_fdesc (Some "isync") (SzInt 1%Z) TInt FrNone (DfInt 0%Z) None false 32%N true None 0%Z false);
  (* pynitf/nitf_image_subheader.py:71 *) RField (Build_fdesc (Some "imode") (SzInt 1%Z) TStr FrNone (DfStr (str "B")) None false 32%N false None 0%Z false);
  (* pynitf/nitf_image_subheader.py:72 *) RField (Build_fdesc (Some "nbpr") (SzInt 4%Z) TInt FrNone (DfInt 1%Z) None false 32%N false None 0%Z false);
  (* pynitf/nitf_image_subheader.py:73 *) RField (Build_fdesc (Some "nbpc") (SzInt 4%Z) TInt FrNone (DfInt 1%Z) None false 32%N false None 0%Z false);
  (* pynitf/nitf_image_subheader.py:74 *) RField (Build_fdesc (Some "nppbh") (SzInt 4%Z) TInt FrNone DfNone None false 32%N false None 0%Z false);
  (* pynitf/nitf_image_subheader.py:75 *) RField (Build_fdesc (Some "nppbv") (SzInt 4%Z) TInt FrNone DfNone None false 32%N false None 0%Z false);
  (* pynitf/nitf_image_subheader.py:76 *) RField (Build_fdesc (Some "nbpp") (SzInt 2%Z) TInt FrNone (DfInt 8%Z) None false 32%N false None 0%Z false);
  (* pynitf/nitf_image_subheader.py:77 *) RField (Build_fdesc (Some "idlvl") (SzInt 3%Z) TInt FrNone DfNone None false 32%N false None 0%Z false);
  (* pynitf/nitf_image_subheader.py:78 *) RField (Build_fdesc (Some "ialvl") (SzInt 3%Z) TInt FrNone DfNone None false 32%N false None 0%Z false);
  (* pynitf/nitf_image_subheader.py:79 *) RField (Build_fdesc (Some "iloc") (SzInt 10%Z) TStr FrNone (DfStr (str "0000000000")) None false 32%N false None 0%Z false);
  (* pynitf/nitf_image_subheader.py:80 *) RField (Build_fdesc (Some "imag") (SzInt 4%Z) TStr FrNone (DfStr (str "1.0")) None false 32%N false None 0%Z false);
  (* pynitf/nitf_image_subheader.py:81 *) RField (Build_fdesc (Some "udidl") (SzInt 5%Z) TInt FrNone DfNone None false 32%N false None 0%Z false);
  (* pynitf/nitf_image_subheader.py:82 *) RField (Build_fdesc (Some "udofl") (SzInt 3%Z) TInt FrNone DfNone (Some (ECmp CNe (EFld "udidl" 0) (EInt 0%Z))) false 32%N false None 0%Z false);
  (* pynitf/nitf_image_subheader.py:83 *) RField (Build_fdesc (Some "udid") (SzExpr (EFld "udidl" 0)) (TData KBytes) FrNone DfNone None false 32%N false None 3%Z false);
  (* pynitf/nitf_image_subheader.py:85 *) RField (Build_fdesc (Some "ixshdl") (SzInt 5%Z) TInt FrNone DfNone None false 32%N false None 0%Z false);
  (* pynitf/nitf_image_subheader.py:86 *) RField (Build_fdesc (Some "ixofl") (SzInt 3%Z) TInt FrNone DfNone (Some (ECmp CNe (EFld "ixshdl" 0) (EInt 0%Z))) false 32%N false None 0%Z false);
  (* pynitf/nitf_image_subheader.py:87 *) RField (Build_fdesc (Some "ixshd") (SzExpr (EFld "ixshdl" 0)) (TData KBytes) FrNone DfNone None false 32%N false None 3%Z false)
].

(** pynitf/nitf_res_subheader.py, class NitfResSubheader (line 38), table at line 12. *)
Definition desc_NitfResSubheader : list row := [
  (* pynitf/nitf_res_subheader.py:12 *) RField (Build_fdesc (Some "re") (SzInt 2%Z) TStr FrNone (DfStr (str "RE")) None false 32%N true None 0%Z false);
  (* pynitf/nitf_res_subheader.py:14 *) RField (Build_fdesc (Some "resid") (SzInt 25%Z) TStr FrNone DfNone None false 32%N false None 0%Z false);
  (* pynitf/nitf_res_subheader.py:15 *) RField (Build_fdesc (Some "resver") (SzInt 2%Z) TInt FrNone DfNone None false 32%N false None 0%Z false);
  (* pynitf/nitf_res_subheader.py:16 *) RField (Build_fdesc (Some "reclas") (SzInt 1%Z) TStr FrNone (DfStr (str "U")) None false 32%N false None 0%Z false);
  (* pynitf/nitf_res_subheader.py:17 *) RField (Build_fdesc (Some "reclsy") (SzInt 2%Z) TStr FrNone DfNone None false 32%N false None 0%Z false);
  (* pynitf/nitf_res_subheader.py:18 *) RField (Build_fdesc (Some "recode") (SzInt 11%Z) TStr FrNone DfNone None false 32%N false None 0%Z false);
  (* pynitf/nitf_res_subheader.py:19 *) RField (Build_fdesc (Some "rectlh") (SzInt 2%Z) TStr FrNone DfNone None false 32%N false None 0%Z false);
  (* pynitf/nitf_res_subheader.py:20 *) RField (Build_fdesc (Some "rerel") (SzInt 20%Z) TStr FrNone DfNone None false 32%N false None 0%Z false);
  (* pynitf/nitf_res_subheader.py:21 *) RField (Build_fdesc (Some "redctp") (SzInt 2%Z) TStr FrNone DfNone None false 32%N false None 0%Z false);
  (* pynitf/nitf_res_subheader.py:22 *) RField (Build_fdesc (Some "redcdt") (SzInt 8%Z) TStr FrNone DfNone None false 32%N false None 0%Z false);
  (* pynitf/nitf_res_subheader.py:23 *) RField (Build_fdesc (Some "redcxm") (SzInt 4%Z) TStr FrNone DfNone None false 32%N false None 0%Z false);
  (* pynitf/nitf_res_subheader.py:24 *) RField (Build_fdesc (Some "redg") (SzInt 1%Z) TStr FrNone DfNone None false 32%N false None 0%Z false);
  (* pynitf/nitf_res_subheader.py:25 *) RField (Build_fdesc (Some "redgdt") (SzInt 8%Z) TStr FrNone DfNone None false 32%N false None 0%Z false);
  (* pynitf/nitf_res_subheader.py:26 *) RField (Build_fdesc (Some "recltx") (SzInt 43%Z) TStr FrNone DfNone None false 32%N false None 0%Z false);
  (* pynitf/nitf_res_subheader.py:27 *) RField (Build_fdesc (Some "recatp") (SzInt 1%Z) TStr FrNone DfNone None false 32%N false None 0%Z false);
  (* pynitf/nitf_res_subheader.py:28 *) RField (Build_fdesc (Some "recaut") (SzInt 40%Z) TStr FrNone DfNone None false 32%N false None 0%Z false);
  (* pynitf/nitf_res_subheader.py:29 *) RField (Build_fdesc (Some "recrsn") (SzInt 1%Z) TStr FrNone DfNone None false 32%N false None 0%Z false);
  (* pynitf/nitf_res_subheader.py:30 *) RField (Build_fdesc (Some "resrdt") (SzInt 8%Z) TStr FrNone DfNone None false 32%N false None 0%Z false);
  (* pynitf/nitf_res_subheader.py:31 *) RField (Build_fdesc (Some "rectln") (SzInt 15%Z) TStr FrNone DfNone None false 32%N false None 0%Z false);
  (* pynitf/nitf_res_subheader.py:32 *) RField (Build_fdesc (Some "resshl") (SzInt 4%Z) TInt FrNone DfNone None false 32%N false None 0%Z false);
  (* pynitf/nitf_res_subheader.py:33 *) RField (Build_fdesc (Some "resshf") (SzExpr (EFld "resshl" 0)) (TData KBytes) FrNone DfNone None false 32%N false None 0%Z false)
].

(** pynitf/nitf_text_subheader.py, class NitfTextSubheader (line 48), table at line 12. *)
Definition desc_NitfTextSubheader : list row := [
  (* pynitf/nitf_text_subheader.py:12 *) RField (Build_fdesc (Some "te") (SzInt 2%Z) TStr FrNone (DfStr (str "TE")) None false 32%N true None 0%Z false);
  (* pynitf/nitf_text_subheader.py:14 *) RField (Build_fdesc (Some "textid") (SzInt 7%Z) TStr FrNone DfNone None false 32%N false None 0%Z false);
  (* pynitf/nitf_text_subheader.py:21 *) RField (Build_fdesc (Some "txtalvl") (SzInt 3%Z) TInt FrNone DfNone None true 32%N false None 0%Z false);
  (* pynitf/nitf_text_subheader.py:22 *) RField (Build_fdesc (Some "txtdt") (SzInt 14%Z) TStr FrNone DfNone None false 32%N false None 0%Z false);
  (* pynitf/nitf_text_subheader.py:23 *) RField (Build_fdesc (Some "txtitl") (SzInt 80%Z) TStr FrNone DfNone None false 32%N false None 0%Z false);
  (* pynitf/nitf_text_subheader.py:24 *) RField (Build_fdesc (Some "tsclas") (SzInt 1%Z) TStr FrNone (DfStr (str "U")) None false 32%N false None 0%Z false);
  (* pynitf/nitf_text_subheader.py:25 *) RField (Build_fdesc (Some "tsclsy") (SzInt 2%Z) TStr FrNone DfNone None false 32%N false None 0%Z false);
  (* pynitf/nitf_text_subheader.py:26 *) RField (Build_fdesc (Some "tscode") (SzInt 11%Z) TStr FrNone DfNone None false 32%N false None 0%Z false);
  (* pynitf/nitf_text_subheader.py:27 *) RField (Build_fdesc (Some "tsctlh") (SzInt 2%Z) TStr FrNone DfNone None false 32%N false None 0%Z false);
  (* pynitf/nitf_text_subheader.py:28 *) RField (Build_fdesc (Some "tsrel") (SzInt 20%Z) TStr FrNone DfNone None false 32%N false None 0%Z false);
  (* pynitf/nitf_text_subheader.py:29 *) RField (Build_fdesc (Some "tsdctp") (SzInt 2%Z) TStr FrNone DfNone None false 32%N false None 0%Z false);
  (* pynitf/nitf_text_subheader.py:30 *) RField (Build_fdesc (Some "tsdcdt") (SzInt 8%Z) TStr FrNone DfNone None false 32%N false None 0%Z false);
  (* pynitf/nitf_text_subheader.py:31 *) RField (Build_fdesc (Some "tsdcxm") (SzInt 4%Z) TStr FrNone DfNone None false 32%N false None 0%Z false);
  (* pynitf/nitf_text_subheader.py:32 *) RField (Build_fdesc (Some "tsdg") (SzInt 1%Z) TStr FrNone DfNone None false 32%N false None 0%Z false);
  (* pynitf/nitf_text_subheader.py:33 *) RField (Build_fdesc (Some "tsdgdt") (SzInt 8%Z) TStr FrNone DfNone None false 32%N false None 0%Z false);
  (* pynitf/nitf_text_subheader.py:34 *) RField (Build_fdesc (Some "tscltx") (SzInt 43%Z) TStr FrNone DfNone None false 32%N false None 0%Z false);
  (* pynitf/nitf_text_subheader.py:35 *) RField (Build_fdesc (Some "tscatp") (SzInt 1%Z) TStr FrNone DfNone None false 32%N false None 0%Z false);
  (* pynitf/nitf_text_subheader.py:36 *) RField (Build_fdesc (Some "tscaut") (SzInt 40%Z) TStr FrNone DfNone None false 32%N false None 0%Z false);
  (* pynitf/nitf_text_subheader.py:37 *) RField (Build_fdesc (Some "tscrsn") (SzInt 1%Z) TStr FrNone DfNone None false 32%N false None 0%Z false);
  (* pynitf/nitf_text_subheader.py:38 *) RField (Build_fdesc (Some "tssrdt") (SzInt 8%Z) TStr FrNone DfNone None false 32%N false None 0%Z false);
  (* pynitf/nitf_text_subheader.py:39 *) RField (Build_fdesc (Some "tsctln") (SzInt 15%Z) TStr FrNone DfNone None false 32%N false None 0%Z false);
  (* pynitf/nitf_text_subheader.py:40 *) RField (Build_fdesc (Some "encryp") (SzInt 1%Z) TInt FrNone DfNone None false 32%N false None 0%Z false);
  (* pynitf/nitf_text_subheader.py:41 *) RField (Build_fdesc (Some "txtfmt") (SzInt 3%Z) TStr FrNone DfNone None false 32%N false None 0%Z false);
  (* pynitf/nitf_text_subheader.py:42 *) RField (Build_fdesc (Some "txshdl") (SzInt 5%Z) TInt FrNone DfNone None false 32%N false None 0%Z false);
  (* pynitf/nitf_text_subheader.py:43 *) RField (Build_fdesc (Some "txsofl") (SzInt 3%Z) TInt FrNone DfNone (Some (ECmp CNe (EFld "txshdl" 0) (EInt 0%Z))) false 32%N false None 0%Z false);
  (* pynitf/nitf_text_subheader.py:44 *) RField (Build_fdesc (Some "txshd") (SzExpr (EFld "txshdl" 0)) (TData KBytes) FrNone DfNone None false 32%N false None 3%Z false)
].

(** All tables of this file, by class name.
    (all the descriptions of this file, each cited above; nitf_field.py:787-817.) *)
Definition all_DescsHdr : list (string * list row) := [
  ("DesAssociatedUserSubheader", desc_DesAssociatedUserSubheader);
  ("NitfDesSubheader", desc_NitfDesSubheader);
  ("NitfFileHeader", desc_NitfFileHeader);
  ("NitfGraphicSubheader", desc_NitfGraphicSubheader);
  ("NitfImageSubheader", desc_NitfImageSubheader);
  ("NitfResSubheader", desc_NitfResSubheader);
  ("NitfTextSubheader", desc_NitfTextSubheader)
].
