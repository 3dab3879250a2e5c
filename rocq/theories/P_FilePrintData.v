(** What the text of a file says about the data of a segment, and its summary about the subheader
    (C63). *)
From Verif Require Import Base BaseLemmas Engine Utf8 Decimal Tre Handles TrePlace Security Image DescsHdr File Diff Hooks Listing DesPrint FileDiff FileLog FilePrint P_FilePrint
  P_Image P_File P_ListingRead P_FileDiffEx P_FilePrintEx.
Open Scope list_scope.
Ltac Zify.zify_post_hook ::= idtac.

Section Data.
Variable FO : FloatOps.
Notation hdr := (hdr FO).
Notation pyval := (pyval FO).
Notation seg := (seg FO).
Variable ext : field -> list N -> res (list N).
Variable source : expr -> list N.
Variable H : Type.
Variable o : popts H.
Notation nl := [10%N].
(** The field of the subheader. *)
Notation fld k s nm := (hget FO (sub_rows k) (s_hdr FO s) nm).

(** The number of bands: nbands, or xbands if that is not positive. *)
Definition bands_of (s : seg) (n : Z) : Prop :=
  exists m, fld KImage s "nbands" = Ok (VInt m)
    /\ (((m > 0)%Z /\ n = m) \/ ((m <= 0)%Z /\ fld KImage s "xbands" = Ok (VInt n))).

Lemma dims_fields (s : seg) nb nr nc : dims FO (s_hdr FO s) = Ok (nb, nr, nc) ->
  bands_of s nb /\ fld KImage s "nrows" = Ok (VInt nr) /\ fld KImage s "ncols" = Ok (VInt nc).
Proof.
  unfold dims, shape. intro D. apply bind_ok_elim in D as (((vb & vr) & vc) & SH & D).
  apply bind_ok_elim in SH as (b & B & SH). apply bind_ok_elim in SH as (r & R & SH). apply bind_ok_elim in SH as (c & C & SH).
  apply ok_eq in SH. assert (vb = b /\ vr = r /\ vc = c) as (-> & -> & ->) by (repeat split; congruence). clear SH.
  apply bind_ok_elim in D as (b' & B' & D). apply bind_ok_elim in D as (r' & R' & D). apply bind_ok_elim in D as (c' & C' & D).
  apply ok_eq in D. assert (b' = nb /\ r' = nr /\ c' = nc) as (-> & -> & ->) by (repeat split; congruence). clear D.
  destruct b; try discriminate B'. destruct r; try discriminate R'. destruct c; try discriminate C'.
  cbn in B', R', C'. apply ok_eq in B', R', C'. subst. split; [|split; [exact R|exact C]].
  unfold number_band in B. apply bind_ok_elim in B as (m & M & B). unfold iint, hint in M.
  apply bind_ok_elim in M as (v & V & M). destruct v; try discriminate M. cbn in M. apply ok_eq in M. subst.
  exists m. split; [exact V|]. destruct (m >? 0)%Z eqn:G.
  - left. split; [lia|]. unfold iget in B. change desc_NitfImageSubheader with (sub_rows KImage) in B.
    change desc_NitfImageSubheader with (sub_rows KImage) in V. rewrite V in B. congruence.
  - right. split; [lia|]. exact B.
Qed.

(** What the text of a segment says about its data: text as it is, the bytes of graphics and
    reserved segments as python prints them, the number of bytes of a DES that was copied, the
    dimensions of an image from its subheader. *)
Theorem C63_data k (s : seg) size d t : data_text FO ext source H o k s size = Ok (d, t) ->
  match s_data FO s with
  | DBytes _ (Some b) =>
      d = s_data FO s /\
      match k with
      | KText => exists u, utf8_dec b = Some u /\ t = str "NitfTextStr:" ++ nl ++ u
      | KGraphic => t = str "NitfGraphicRaw: " ++ bytes_repr b
      | KRes => t = str "NitfResRaw: " ++ bytes_repr b
      | KDes => t = str "NitfDesCopy " ++ str_of_Z (Z.of_nat (List.length b)) ++ str " bytes of data"
      | KImage => t = str "None"
      end
  | DBytes _ None => d = s_data FO s /\ t = str "None"
  | DStr _ u => d = s_data FO s /\ t = str "NitfTextStr:" ++ nl ++ u
  | DFields _ c _ _ => exists st x, d = DFields FO c st x
  | DFile _ b => d = s_data FO s /\
      ((exists n, size = Some n /\ t = str "NitfImagePlaceHolder " ++ str_of_Z n ++ str " bytes of data")
       \/ exists nb nr nc ty, bands_of s nb /\ fld KImage s "nrows" = Ok (VInt nr) /\ fld KImage s "ncols" = Ok (VInt nc)
            /\ t = str "NitfImageReadNumpy " ++ (if (nb =? 1)%Z then [] else str_of_Z nb ++ str " x ")
                   ++ str_of_Z nr ++ str " x " ++ str_of_Z nc ++ str " " ++ dtype_name ty ++ str " image")
  | DImage _ _ _ => d = s_data FO s /\ t = str "NitfImageWithSubset"
  | DHole _ n => d = s_data FO s /\
      exists desc, t = str "NitfDataPlaceHolder for " ++ desc ++ str " with " ++ str_of_Z n ++ str " bytes of data"
  end.
Proof.
  unfold data_text. intro E. destruct (s_data FO s) as [[b|]|u|c st x|b|sh im|n] eqn:SD.
  - apply bind_ok_elim in E as (u & U & E). apply ok_pair in E as (<- & <-). split; [reflexivity|].
    destruct k; try (apply ok_eq in U; rewrite <- U; reflexivity).
    destruct (utf8_dec b) as [y|]; [|discriminate U]. exists y. split; [reflexivity|]. apply ok_eq in U. rewrite <- U.
    unfold line. now rewrite <- app_assoc.
  - apply ok_pair in E as (<- & <-). auto.
  - apply ok_pair in E as (<- & <-). split; [reflexivity|]. unfold line. now rewrite <- app_assoc.
  - apply bind_ok_elim in E as (v & _ & E). destruct v; try discriminate E.
    apply bind_ok_elim in E as ((d' & t') & _ & E). apply ok_pair in E as (<- & _). eauto.
  - apply bind_ok_elim in E as (u & U & E). apply ok_pair in E as (<- & <-). split; [reflexivity|].
    unfold image_text in U. apply bind_ok_elim in U as (r & R & U). destruct r as [(m & q)|].
    + right. destruct (po_numpy o); [|discriminate R]. unfold np_read in R.
      apply bind_ok_elim in R as (p & _ & R). destruct p as [(il & dt)|]; [|discriminate R].
      apply bind_ok_elim in R as (m' & M & R). assert (m' = m) as -> by (apply ok_eq in R; congruence). clear R.
      unfold np_map in M. apply bind_ok_elim in M as (((nb & nr) & nc) & D & M). apply dims_fields in D as (B & R & C).
      destruct ((nb <? 0)%Z || (nr <? 0)%Z || (nc <? 0)%Z); [discriminate M|].
      destruct (_ <? _)%Z in M; [destruct il; discriminate M|]. apply ok_eq in M. rewrite <- M in U. cbn [mp_dims mp_dt] in U.
      apply ok_eq in U. exists nb, nr, nc, dt. repeat split; try assumption. symmetry. exact U.
    + left. destruct size as [n|]; [|discriminate U]. exists n. split; [reflexivity|]. apply ok_eq in U. symmetry. exact U.
  - apply ok_pair in E as (<- & <-). auto.
  - apply bind_ok_elim in E as (vs & _ & E). apply ok_pair in E as (<- & <-). split; [reflexivity|]. eauto.
Qed.

(** ["%s"] of a field. *)
Definition shows k (s : seg) nm (x : list N) : Prop := exists v, fld k s nm = Ok v /\ x = str_any FO v.
(** ["%d"] of a field, which has to be a number. *)
Definition counts k (s : seg) nm (x : list N) : Prop := exists z, fld k s nm = Ok (VInt z) /\ x = str_of_Z z.

Lemma part_lit k (s : seg) l t : part_text FO (hget FO (sub_rows k) (s_hdr FO s)) (PLit l) = Ok t -> t = str l.
Proof. cbn. intro E. now apply ok_eq in E. Qed.
Lemma part_str k (s : seg) nm t : part_text FO (hget FO (sub_rows k) (s_hdr FO s)) (PStr nm) = Ok t -> shows k s nm t.
Proof. cbn [part_text]. intro E. apply bind_ok_elim in E as (v & V & E). exists v. split; [exact V|]. now apply ok_eq in E. Qed.
Lemma part_int k (s : seg) nm t : part_text FO (hget FO (sub_rows k) (s_hdr FO s)) (PInt nm) = Ok t -> counts k s nm t.
Proof.
  cbn [part_text]. intro E. apply bind_ok_elim in E as (v & V & E). destruct v; try discriminate E. cbn in E.
  eexists. split; [exact V|]. now apply ok_eq in E.
Qed.

(** The line is made of the parts. *)
Lemma line_parts (get : string -> res pyval) : forall ps t, part_line FO get ps = Ok t ->
  exists ts, Forall2 (fun p x => part_text FO get p = Ok x) ps ts /\ t = List.concat ts ++ nl.
Proof.
  intros ps t E. unfold part_line in E. apply bind_ok_elim in E as (l & L & E). apply ok_eq in E. rewrite <- E.
  exists l. split; [now apply map_res_all|reflexivity].
Qed.

Ltac parts F :=
  repeat match type of F with
  | Forall2 _ (_ :: _) _ => let x := fresh "x" in let P := fresh "P" in let F' := fresh "F" in
      inversion F as [|? x ? ? P F']; subst; clear F; rename F' into F
  | Forall2 _ [] _ => inversion F; subst; clear F
  end.
Ltac says :=
  repeat match goal with
  | P : part_text _ _ (PLit _) = Ok _ |- _ => apply part_lit in P; rewrite P in *; clear P
  | P : part_text _ _ (PStr _) = Ok _ |- _ => apply part_str in P
  | P : part_text _ _ (PInt _) = Ok _ |- _ => apply part_int in P
  end.

(** What the summary of a segment says before the TREs. *)
Theorem C63_summary_says k (s : seg) t : sub_summary FO k (s_hdr FO s) = Ok t ->
  match k with
  | KImage => exists im id1 id2 rows cols bands abpp nbpp,
      shows k s "im" im /\ shows k s "iid1" id1 /\ shows k s "iid2" id2 /\ counts k s "nrows" rows /\ counts k s "ncols" cols
      /\ ((exists z, z <> 0%Z /\ fld k s "nbands" = Ok (VInt z) /\ bands = str_of_Z z)
          \/ ((fld k s "nbands" = Ok (VInt 0) \/ fld k s "nbands" = Ok (VBool false)) /\ counts k s "xbands" bands))
      /\ counts k s "abpp" abpp /\ counts k s "nbpp" nbpp
      /\ t = im ++ str " " ++ id1 ++ str " " ++ id2 ++ nl ++ rows ++ str " X " ++ cols ++ str ", " ++ bands ++ str " Band(s), "
             ++ abpp ++ str "/" ++ nbpp ++ str " bpp" ++ nl
  | KGraphic => exists a b c, shows k s "sy" a /\ shows k s "sid" b /\ shows k s "sname" c /\ t = a ++ str " " ++ b ++ str " " ++ c ++ nl
  | KText => exists a b c, shows k s "te" a /\ shows k s "textid" b /\ shows k s "txtitl" c /\ t = a ++ str " " ++ b ++ str " " ++ c ++ nl
  | KDes => exists a, shows k s "desid" a /\ t = a ++ str " " ++ nl
  | KRes => exists a b c, shows k s "re" a /\ shows k s "resid" b /\ shows k s "resver" c /\ t = a ++ str " " ++ b ++ str " " ++ c ++ str " " ++ nl
  end.
Proof.
  unfold sub_summary. intro E. destruct k.
  - apply bind_ok_elim in E as (a & A & E). apply bind_ok_elim in E as (nb & NB & E). apply bind_ok_elim in E as (z & Z & E).
    apply bind_ok_elim in E as (b & B & E). apply ok_eq in E. rewrite <- E. clear E.
    apply line_parts in A as (ta & A & ->). apply line_parts in B as (tb & B & ->). parts A. parts B. says.
    match goal with X : counts KImage s (if z then _ else _) ?y |- _ => rename X into BD; rename y into bd end.
    match goal with X : shows KImage s "im" ?y |- _ => rename y into im end.
    match goal with X : shows KImage s "iid1" ?y |- _ => rename y into id1 end.
    match goal with X : shows KImage s "iid2" ?y |- _ => rename y into id2 end.
    match goal with X : counts KImage s "nrows" ?y |- _ => rename y into rows end.
    match goal with X : counts KImage s "ncols" ?y |- _ => rename y into cols end.
    match goal with X : counts KImage s "abpp" ?y |- _ => rename y into ab end.
    match goal with X : counts KImage s "nbpp" ?y |- _ => rename y into nbp end.
    exists im, id1, id2, rows, cols, bd, ab, nbp. do 5 (split; [assumption|]). split.
    + destruct z.
      * right. split; [|exact BD]. rewrite NB. destruct nb as [|y|y|y|y|y]; cbn in Z; try discriminate Z.
        -- right. destruct y; [discriminate Z|reflexivity].
        -- left. apply ok_eq in Z. apply Z.eqb_eq in Z. now rewrite Z.
      * left. destruct BD as (y & Y & ->). exists y. repeat split; [|exact Y]. intros ->. rewrite NB in Y. apply ok_eq in Y. rewrite Y in Z. discriminate Z.
    + do 2 (split; [assumption|]). cbn [List.concat]. now rewrite <- !app_assoc.
  - apply line_parts in E as (ts & E & ->). parts E. says. do 3 eexists. do 3 (split; [eassumption|]). cbn [List.concat]. now rewrite <- !app_assoc.
  - apply line_parts in E as (ts & E & ->). parts E. says. do 3 eexists. do 3 (split; [eassumption|]). cbn [List.concat]. now rewrite <- !app_assoc.
  - apply line_parts in E as (ts & E & ->). parts E. says. eexists. split; [eassumption|]. cbn [List.concat]. now rewrite <- !app_assoc.
  - apply line_parts in E as (ts & E & ->). parts E. says. do 3 eexists. do 3 (split; [eassumption|]). cbn [List.concat]. now rewrite <- !app_assoc.
Qed.
End Data.

Print Assumptions C63_data.
Print Assumptions C63_summary_says.

(** An image of 2 by 3 pixels in 12 bands that was read, and one with a byte too few. *)
Definition ex_image FO n : seg FO := ex_seg FO (ex_hdr FO GAll U2 2 3 12) (DFile FO (repeat 7%N n)) [].
Example ex_c63_image FO : (do (_, t) <- data_text FO no_ext case_source unit bare KImage (ex_image FO 144) (Some 144%Z); Ok t)
  = Ok (str "NitfImageReadNumpy 12 x 2 x 3 uint16 image").
Proof. vm_compute. reflexivity. Qed.
Example ex_c63_few FO : (do (_, t) <- data_text FO no_ext case_source unit bare KImage (ex_image FO 143) (Some 143%Z); Ok t) = Err EType.
Proof. vm_compute. reflexivity. Qed.
Example ex_c63_image_summary FO : sub_summary FO KImage (s_hdr FO (ex_image FO 144))
  = Ok (words ["IM Test second"; "2 X 3, 12 Band(s), 16/16 bpp"]%string).
Proof. vm_compute. reflexivity. Qed.
