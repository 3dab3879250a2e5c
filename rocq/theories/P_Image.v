(** Properties C35 and C36: band count and pixel type, image data. *)
From Verif Require Import Base BaseLemmas Engine Wf EngineLemmas Codec RoundTrip Rewrite Literal
  Positions Keys Deps Assign Update Spec DescsHdr Utf8 Tre TreLemmas TrePlace TrePlaceLemmas Scalar Security P_Security
  P_RoundTrip Image ImageLemmas ImageNew.
From Coq Require Import ZifyBool ZifyNat ZifyN.
Open Scope list_scope.
Ltac Zify.zify_post_hook ::= idtac.

(** ** Writing and reading a subheader keeps integers and texts *)
Section RT.
Variable FO : FloatOps.
Variable rows : list row.
Hypothesis laws : FloatLaws FO.
Hypothesis wf : wf_rows rows = true.

(** [nm] is a field outside of loops holding a number or text that is never left out. *)
Definition kept (nm : string) : bool :=
  match lookup (mk_fs rows) nm with
  | Some f => match f_loops f with [] => true | _ => false end
              && match fd_ty (f_d f) with TStr => negb (fd_optional (f_d f)) | TInt | TBytes | TData _ => true | _ => false end
  | None => false
  end.

Lemma kept_get (st s0 : state FO) lit b rest : literals_ok FO (mk_fs rows) st ->
  write FO (mk_fs rows) st = Ok b ->
  exists st1, read FO (mk_fs rows) lit s0 (b ++ rest) = Ok (st1, rest)
    /\ forall nm v, kept nm = true -> get FO (mk_fs rows) st nm [] = Ok v -> get FO (mk_fs rows) st1 nm [] = Ok v.
Proof.
  intros HL HW. destruct (C01_round_trip FO rows st s0 lit b rest laws wf HL HW) as (st1 & R & _ & HG).
  exists st1. split; [exact R|]. intros nm v HK Hg. unfold kept in HK.
  destruct (lookup (mk_fs rows) nm) as [f|] eqn:L; [|discriminate]. apply andb_true_iff in HK as [K1 K2].
  destruct (HG nm f [] v L) as (v' & sz & E & [->|(_ & S)]); auto.
  - destruct (f_loops f) eqn:LF; [|discriminate]. split; [now rewrite LF|]. rewrite LF. cbn. lia.
  - rewrite E. destruct S as [->|[(x & t & y & T & _)|(t & T & O & _)]]; auto; exfalso.
    + rewrite T in K2. discriminate.
    + rewrite T, O in K2. discriminate.
Qed.
End RT.

Section C35.
Variable FO : FloatOps.
Notation hdr := (hdr FO).

(** Fields other than [l] and than those whose presence, size or count depends on [l]. *)
Definition apart (l : list string) (f : field) : Prop :=
  forall nm g, In nm l -> lookup ifs nm = Some g -> f <> g /\ ~ reaches ifs f g.

Lemma apart_frame l (h h' : hdr) : (forall nm, In nm l -> lookup ifs nm = Some (fld_of nm)) ->
  (forall y p, In y (fs_fields ifs) -> (forall nm, In nm l -> y <> fld_of nm) -> stored FO (h_st h') y p = stored FO (h_st h) y p) ->
  forall nm f k, lookup ifs nm = Some f -> apart l f -> get FO ifs (h_st h') nm k = get FO ifs (h_st h) nm k.
Proof.
  intros HL HS nm f k L A. apply (get_same_reads FO irows _ _ nm f k L).
  - apply HS; [eapply lookup_in; eauto|]. intros n Hn. now apply (A n _ Hn (HL n Hn)).
  - intros y p R. apply HS; [eapply reaches_in; eauto|]. intros n Hn ->. now apply (A n _ Hn (HL n Hn)).
Qed.

(** The number of bands set is the number of bands read, from any earlier state, also after the
    header has been written and read; nothing unrelated changes. *)
Theorem C35_bands (h : hdr) n : st_impl FO (h_st h) = false -> h_attr h = [] -> (1 <= n)%Z ->
  exists h', set_number_band FO n h = (h', Ok tt) /\ number_band FO h' = Ok (VInt n)
    /\ (forall nm f k, lookup ifs nm = Some f -> apart ["nbands"; "xbands"]%string f ->
          get FO ifs (h_st h') nm k = get FO ifs (h_st h) nm k)
    /\ forall lit s0 b rest, FloatLaws FO -> literals_ok FO ifs (h_st h') -> write FO ifs (h_st h') = Ok b ->
       exists st1, read FO ifs lit s0 (b ++ rest) = Ok (st1, rest)
         /\ number_band FO {| h_st := st1; h_attr := [] |} = Ok (VInt n).
Proof.
  intros HI HA Hn. destruct (set_number_band_ok FO h n (conj HI HA) Hn) as (h' & E & O' & B & S).
  exists h'. split; [exact E|]. split; [now apply bands_get|]. split.
  - apply apart_frame.
    + intros nm Hi. cbn [In] in Hi. destruct Hi as [<-|[<-|[]]]; [apply (plain_fld "nbands"); cbn; tauto|apply xbands_fld].
    + intros y p Hy Hne. apply S; auto; apply Hne; cbn; tauto.
  - intros lit s0 b rest laws HL HW.
    destruct (kept_get FO irows laws irows_wf (h_st h') s0 lit b rest HL HW) as (st1 & R & K).
    exists st1. split; [exact R|].
    assert (K1 : kept irows "nbands" = true) by (vm_compute; reflexivity).
    assert (K2 : kept irows "xbands" = true) by (vm_compute; reflexivity).
    assert (Q : forall (h : hdr) nm, nm = "nbands"%string \/ nm = "xbands"%string -> iget FO h nm = get FO ifs (h_st h) nm []).
    { intros h0 nm Hnm. unfold iget, hget. destruct Hnm as [->| ->].
      - destruct (plain_fld "nbands" ltac:(cbn; tauto)) as (-> & _). reflexivity.
      - destruct xbands_fld as (-> & _). reflexivity. }
    assert (G := bands_get FO h' n B). unfold number_band, iint, hint in *. fold (iget FO h' "nbands") in G.
    fold (iget FO {| h_st := st1; h_attr := [] |} "nbands"). rewrite !Q in * by auto. cbn [h_st].
    destruct (get FO ifs (h_st h') "nbands" []) as [v|] eqn:EV; [|discriminate]. rewrite (K _ _ K1 EV). cbn [bind] in *.
    destruct v as [| | z | | |]; try discriminate. cbn [bind] in *. destruct (z >? 0)%Z; [exact G|]. now apply K.
Qed.

(** The type set is the type read, big endian (a type of this model has no byte order); both
    bit counts are those of the type.  After writing and reading too, where the header can be written. *)
Theorem C35_dtype (h : hdr) be d : st_impl FO (h_st h) = false -> h_attr h = [] ->
  exists h', set_dtype FO (Np be d) h = (h', Ok tt) /\ get_dtype FO h' = Ok d
    /\ iget FO h' "abpp" = Ok (VInt (8 * itemsize d)) /\ iget FO h' "nbpp" = Ok (VInt (8 * itemsize d))
    /\ (forall nm f k, lookup ifs nm = Some f -> apart ["abpp"; "nbpp"; "pvtype"]%string f ->
          get FO ifs (h_st h') nm k = get FO ifs (h_st h) nm k)
    /\ forall lit s0 b rest, FloatLaws FO -> literals_ok FO ifs (h_st h') -> write FO ifs (h_st h') = Ok b ->
       exists st1, read FO ifs lit s0 (b ++ rest) = Ok (st1, rest)
         /\ get_dtype FO {| h_st := st1; h_attr := [] |} = Ok d.
Proof.
  intros HI HA. destruct (set_dtype_ok FO h be d (conj HI HA)) as (h' & E & O' & S1 & S2 & S3 & S).
  assert (B : fst (dtype_fields d) = (8 * itemsize d)%Z) by (destruct d; reflexivity). rewrite B in *.
  assert (G2 : iget FO h' "nbpp" = Ok (VInt (8 * itemsize d))) by (apply iget_int; auto; cbn; tauto).
  assert (G3 : iget FO h' "pvtype" = Ok (VStr (str (snd (dtype_fields d))))).
  { apply iget_str; auto; [cbn; tauto|]. destruct d; reflexivity. }
  exists h'. split; [exact E|]. split; [apply dtype_of_fields; [now rewrite B|exact G3]|].
  split; [apply iget_int; auto; cbn; tauto|]. split; [exact G2|]. split.
  - apply apart_frame.
    + intros nm Hn. cbn [In] in Hn. apply plain_fld. destruct Hn as [<-|[<-|[<-|[]]]]; cbn; tauto.
    + intros y p Hy Hne. apply S; auto; apply Hne; cbn; tauto.
  - intros lit s0 b rest laws HL HW.
    destruct (kept_get FO irows laws irows_wf (h_st h') s0 lit b rest HL HW) as (st1 & R & K).
    exists st1. split; [exact R|].
    assert (Q : forall (h : hdr) nm, In nm plain_names -> iget FO h nm = get FO ifs (h_st h) nm []).
    { intros h0 nm Hnm. unfold iget, hget. destruct (plain_fld nm Hnm) as (-> & _). reflexivity. }
    apply dtype_of_fields; rewrite Q by (cbn; tauto); (apply K; [vm_compute; reflexivity|]); rewrite <- Q by (cbn; tauto);
      [now rewrite B|exact G3].
Qed.

(** A type the library does not know is refused and changes nothing. *)
Theorem C35_unknown (h : hdr) : set_dtype FO NpOther h = (h, Err ERuntime).
Proof. reflexivity. Qed.

(** What a header of any values shows as its type: the one whose bits NBPP counts and whose kind
    PVTYPE names; any other combination raises. *)
Theorem C35_reads (h : hdr) n p : iget FO h "nbpp" = Ok (VInt n) -> iget FO h "pvtype" = Ok (VStr p) ->
  let kind d := match d with U1 | U2 | U4 => "INT" | I1 | I2 | I4 => "SI" | F4 | F8 => "R" | C8 | C16 => "C" end%string in
  (forall d, get_dtype FO h = Ok d <-> n = (8 * itemsize d)%Z /\ p = str (kind d))
  /\ ((forall d, n <> (8 * itemsize d)%Z \/ p <> str (kind d)) -> get_dtype FO h = Err ERuntime).
Proof.
  intros E1 E2 kind.
  assert (S : forall b q, ieq FO h "nbpp" (VInt b) = Ok (n =? b)%Z /\ ieq FO h "pvtype" (VStr (str q)) = Ok (list_eqb p (str q))).
  { intros b q. unfold ieq. rewrite E1, E2. split; reflexivity. }
  assert (F : forall l, find_dtype FO h l = match find (fun x => (n =? fst (fst x))%Z && list_eqb p (str (snd (fst x)))) l with Some (_, d) => Ok d | None => Err ERuntime end).
  { induction l as [|[[b q] d] l IH]; cbn [find_dtype find fst snd]; [now rewrite E1, E2|].
    rewrite (proj1 (S b q)). cbn [bind]. destruct (n =? b)%Z; cbn [andb bind]; [|exact IH]. rewrite (proj2 (S b q)). cbn [bind]. destruct (list_eqb p (str q)); auto. }
  unfold get_dtype. rewrite F. clear F S.
  assert (T : forall x, In x dtype_table <-> exists d, x = ((8 * itemsize d)%Z, kind d, d)).
  { intro x. split.
    - intros [<-|[<-|[<-|[<-|[<-|[<-|[<-|[<-|[<-|[<-|[]]]]]]]]]]]; match goal with |- exists d, (_, _, ?x) = _ => exists x end; reflexivity.
    - intros [[] ->]; cbn; tauto. }
  assert (K : forall d d', (8 * itemsize d)%Z = (8 * itemsize d')%Z -> str (kind d) = str (kind d') -> d = d').
  { intros [] []; intros A B; try reflexivity; try discriminate A; discriminate B. }
  destruct (find _ dtype_table) as [[[b q] d]|] eqn:Ef.
  - apply find_some in Ef as [Hin Hc]. cbn [fst snd] in Hc. apply andb_prop in Hc as [H1 H2]. apply Z.eqb_eq in H1. apply list_eqb_spec in H2.
    apply T in Hin as [d' Hd]. injection Hd as -> -> ->. split.
    + intros d. split; [intro H; injection H as <-; auto|]. intros [-> ->]. f_equal. now apply K.
    + intro H. destruct (H d') as [N|N]; contradiction.
  - split; [|auto]. intros d. split; [intro H; discriminate H|]. intros [-> ->].
    assert (H := find_none _ _ Ef ((8 * itemsize d)%Z, kind d, d) (proj2 (T _) (ex_intro _ d eq_refl))). cbn [fst snd] in H.
    rewrite Z.eqb_refl, (proj2 (list_eqb_spec _ _) eq_refl) in H. discriminate H.
Qed.

End C35.

(** ** C36: image data *)

(** The pixels of an image in the order its mode prescribes: band after band, or for each row
    and column the bands together. *)
Definition in_image (nb nr nc : Z) (p : Z * Z * Z) : Prop :=
  let '(b, r, c) := p in (0 <= b < nb /\ 0 <= r < nr /\ 0 <= c < nc)%Z.
Definition pixel_order (m : gen_mode) (nb nr nc : Z) : list (Z * Z * Z) :=
  match m with
  | GAll | GBand => flat_map (fun b => flat_map (fun r => map (fun c => (b, r, c)) (upto nc)) (upto nr)) (upto nb)
  | GRowP => flat_map (fun r => flat_map (fun c => map (fun b => (b, r, c)) (upto nb)) (upto nc)) (upto nr)
  end.

(** The callback fills the array it is given with the pixels [px] asked for. *)
Definition fills (f : supplier) (b l s : Z) (sh : list Z) (items : list item) : Prop :=
  forall d, a_shape d = sh -> exists d', f d b l s = Ok d' /\ a_shape d' = sh /\ a_items d' = items.
Definition supplies (m : gen_mode) (f : supplier) (nb nr nc : Z) (px : Z * Z * Z -> item) : Prop :=
  match m with
  | GAll => fills f 0 0 0 [nb; nr; nc] (map px (pixel_order GAll nb nr nc))
  | GBand => forall b, (0 <= b < nb)%Z ->
      fills f b 0 0 [nr; nc] (flat_map (fun r => map (fun c => px (b, r, c)) (upto nc)) (upto nr))
  | GRowP => forall r, (0 <= r < nr)%Z ->
      fills f 0 r 0 [nc; nb] (flat_map (fun c => map (fun b => px (b, r, c)) (upto nb)) (upto nc))
  end.

Lemma upto_in n x : In x (upto n) <-> (0 <= x < n)%Z.
Proof.
  unfold upto. rewrite in_map_iff. split.
  - intros (k & <- & H). apply in_seq in H. lia.
  - intro H. exists (Z.to_nat x). split; [lia|]. apply in_seq. lia.
Qed.
Lemma upto_nodup n : NoDup (upto n).
Proof. unfold upto. apply FinFun.Injective_map_NoDup; [intros a b; lia|apply seq_NoDup]. Qed.
Lemma upto_len n : List.length (upto n) = Z.to_nat n.
Proof. unfold upto. now rewrite map_length, seq_length. Qed.
Lemma upto_nth n i d : (0 <= i < n)%Z -> nth (Z.to_nat i) (upto n) d = i.
Proof.
  intro H. unfold upto. rewrite (nth_indep _ d (Z.of_nat 0)) by (rewrite map_length, seq_length; lia).
  rewrite map_nth, seq_nth by lia. lia.
Qed.

Lemma flat_map_nodup {A B} (g : A -> list B) l : NoDup l -> (forall a, In a l -> NoDup (g a)) ->
  (forall a a' x, In a l -> In a' l -> In x (g a) -> In x (g a') -> a = a') -> NoDup (flat_map g l).
Proof.
  induction l as [|a l IH]; intros N G D; cbn; [constructor|]. inversion N; subst.
  assert (G1 : NoDup (g a)) by (apply G; now left).
  assert (G2 : NoDup (flat_map g l)).
  { apply IH; auto; [intros; apply G; now right|intros; eapply D; eauto; now right]. }
  assert (D2 : forall x, In x (g a) -> ~ In x (flat_map g l)).
  { intros x Y1 Y3. apply in_flat_map in Y3 as (b & Hb & Hx). assert (a = b) by (eapply D; eauto; [now left|now right]). now subst. }
  revert G1 D2. generalize (g a) as l1. induction l1 as [|y l1 IH1]; intros G1 D2; cbn; auto. inversion G1; subst.
  constructor; [|apply IH1; auto; intros; apply D2; now right]. intro X. apply in_app_or in X as [X|X]; [contradiction|].
  eapply D2; [now left|exact X].
Qed.

Lemma flat_map_len {A B} (g : A -> list B) l k : (forall a, In a l -> List.length (g a) = k) ->
  List.length (flat_map g l) = (List.length l * k)%nat.
Proof.
  induction l as [|a l IH]; intro H; cbn; [reflexivity|]. rewrite app_length, (H a) by now left. rewrite IH; [reflexivity|]. intros b Hb. apply H. now right.
Qed.

Lemma flat_map_nth {A B} (g : A -> list B) l k da db i j : (forall a, In a l -> List.length (g a) = k) ->
  (i < List.length l)%nat -> (j < k)%nat -> nth (i * k + j) (flat_map g l) db = nth j (g (nth i l da)) db.
Proof.
  revert i. induction l as [|a l IH]; intros i H Hi Hj; [cbn in Hi; lia|]. cbn [flat_map].
  assert (E : List.length (g a) = k) by (apply H; now left). destruct i as [|i].
  - cbn [nth Nat.mul Nat.add]. apply app_nth1. lia.
  - cbn [List.length] in Hi. rewrite app_nth2 by (rewrite E; cbn; lia). rewrite E.
    replace (S i * k + j - k)%nat with (i * k + j)%nat by (cbn; lia). cbn [nth]. apply IH; auto; [intros; apply H; now right|lia].
Qed.

Lemma concat_item (l : list item) k i : Forall (fun x => List.length x = k) l -> (i < List.length l)%nat ->
  forall rest, firstn k (skipn (i * k) (List.concat l ++ rest)) = nth i l [].
Proof.
  revert i. induction l as [|x l IH]; intros i H Hi rest; [cbn in Hi; lia|]. inversion H; subst. destruct i as [|i].
  - cbn [Nat.mul skipn List.concat nth]. rewrite <- app_assoc, firstn_app, Nat.sub_diag, firstn_all. cbn. now rewrite app_nil_r.
  - cbn [List.concat nth List.length] in *. rewrite <- app_assoc, skipn_app.
    replace (S i * List.length x - List.length x)%nat with (i * List.length x)%nat by (cbn; lia).
    rewrite (skipn_all2 x) by (cbn; lia). cbn [app]. apply IH; auto. lia.
Qed.

Lemma concat_len (l : list item) k : Forall (fun x => List.length x = k) l -> List.length (List.concat l) = (List.length l * k)%nat.
Proof. induction 1 as [|x l E F IH]; cbn; auto. rewrite app_length. lia. Qed.

(** Every pixel is there exactly once. *)
Theorem C36_each_once m nb nr nc :
  NoDup (pixel_order m nb nr nc) /\ forall p, In p (pixel_order m nb nr nc) <-> in_image nb nr nc p.
Proof.
  split.
  - destruct m; cbn [pixel_order];
      (apply flat_map_nodup; [apply upto_nodup|intros a _; apply flat_map_nodup; [apply upto_nodup|intros a' _; apply FinFun.Injective_map_NoDup; [intros x y E; congruence|apply upto_nodup]|]|]);
      intros a1 a2 x _ _ H1 H2; rewrite ?in_flat_map, ?in_map_iff in H1, H2;
      try (destruct H1 as (? & <- & _), H2 as (? & E & _); congruence);
      destruct H1 as (? & _ & H1), H2 as (? & _ & H2); rewrite in_map_iff in H1, H2;
      destruct H1 as (? & <- & _), H2 as (? & E & _); congruence.
  - intros [[b r] c]. cbn [in_image].
    destruct m; cbn [pixel_order]; rewrite in_flat_map; (split;
      [intros (x & Hx & H); apply in_flat_map in H as (y & Hy & H); apply in_map_iff in H as (z & E & Hz); injection E as <- <- <-;
       apply upto_in in Hx, Hy, Hz; tauto|]).
    + intros (H1 & H2 & H3). exists b. split; [now apply upto_in|]. apply in_flat_map. exists r. split; [now apply upto_in|].
      apply in_map_iff. exists c. split; auto. now apply upto_in.
    + intros (H1 & H2 & H3). exists b. split; [now apply upto_in|]. apply in_flat_map. exists r. split; [now apply upto_in|].
      apply in_map_iff. exists c. split; auto. now apply upto_in.
    + intros (H1 & H2 & H3). exists r. split; [now apply upto_in|]. apply in_flat_map. exists c. split; [now apply upto_in|].
      apply in_map_iff. exists b. split; auto. now apply upto_in.
Qed.

Lemma order_len m nb nr nc : (0 <= nb)%Z -> (0 <= nr)%Z -> (0 <= nc)%Z ->
  Z.of_nat (List.length (pixel_order m nb nr nc)) = (nb * nr * nc)%Z.
Proof.
  intros Hb Hr Hc.
  assert (X : forall n1 n2 n3 (g : Z -> Z -> Z -> Z * Z * Z), (0 <= n1)%Z -> (0 <= n2)%Z -> (0 <= n3)%Z ->
     Z.of_nat (List.length (flat_map (fun a => flat_map (fun b => map (g a b) (upto n3)) (upto n2)) (upto n1))) = (n1 * n2 * n3)%Z).
  { intros n1 n2 n3 g H1 H2 H3. rewrite (flat_map_len _ _ (Z.to_nat n2 * Z.to_nat n3)).
    - rewrite upto_len. rewrite !Nat2Z.inj_mul, !Z2Nat.id by lia. ring.
    - intros a _. rewrite (flat_map_len _ _ (Z.to_nat n3)); [now rewrite upto_len|]. intros. now rewrite map_length, upto_len. }
  destruct m; cbn [pixel_order].
  - apply (X nb nr nc (fun b r c => (b, r, c))); auto.
  - apply (X nb nr nc (fun b r c => (b, r, c))); auto.
  - rewrite (X nr nc nb (fun r c b => (b, r, c))); auto. ring.
Qed.

(** Position of a pixel in the order. *)
Definition position (m : gen_mode) (nb nr nc : Z) (p : Z * Z * Z) : Z :=
  let '(b, r, c) := p in match m with GAll | GBand => ((b * nr + r) * nc + c)%Z | GRowP => ((r * nc + c) * nb + b)%Z end.
Lemma order_nth m nb nr nc p d : in_image nb nr nc p ->
  nth (Z.to_nat (position m nb nr nc p)) (pixel_order m nb nr nc) d = p.
Proof.
  assert (X : forall n1 n2 n3 (g : Z -> Z -> Z -> Z * Z * Z) a b c, (0 <= a < n1)%Z -> (0 <= b < n2)%Z -> (0 <= c < n3)%Z ->
     nth (Z.to_nat ((a * n2 + b) * n3 + c)) (flat_map (fun a => flat_map (fun b => map (g a b) (upto n3)) (upto n2)) (upto n1)) d = g a b c).
  { intros n1 n2 n3 g a b c Ha Hb Hc.
    replace (Z.to_nat ((a * n2 + b) * n3 + c)) with (Z.to_nat a * (Z.to_nat n2 * Z.to_nat n3) + (Z.to_nat b * Z.to_nat n3 + Z.to_nat c))%nat by nia.
    assert (L : forall x y, List.length (map (g x y) (upto n3)) = Z.to_nat n3) by (intros; now rewrite map_length, upto_len).
    rewrite (flat_map_nth _ _ (Z.to_nat n2 * Z.to_nat n3) 0%Z).
    - rewrite upto_nth by lia. rewrite (flat_map_nth _ _ (Z.to_nat n3) 0%Z); auto; [|rewrite upto_len; lia|lia].
      rewrite upto_nth by lia. rewrite (nth_indep _ d (g a b 0%Z)) by (rewrite map_length, upto_len; lia).
      rewrite map_nth. now rewrite upto_nth by lia.
    - intros x _. rewrite (flat_map_len _ _ (Z.to_nat n3)); [now rewrite upto_len|auto].
    - rewrite upto_len. lia.
    - nia. }
  destruct p as [[b r] c]. cbn [in_image position]. intros (H1 & H2 & H3). destruct m; cbn [pixel_order].
  - apply (X nb nr nc (fun b r c => (b, r, c))); auto.
  - apply (X nb nr nc (fun b r c => (b, r, c))); auto.
  - apply (X nr nc nb (fun r c b => (b, r, c))); auto.
Qed.

Lemma position_range m nb nr nc p : in_image nb nr nc p -> (0 <= position m nb nr nc p < nb * nr * nc)%Z.
Proof.
  assert (X : forall n1 n2 n3 a b c, (0 <= a < n1)%Z -> (0 <= b < n2)%Z -> (0 <= c < n3)%Z ->
    (0 <= (a * n2 + b) * n3 + c < n1 * n2 * n3)%Z).
  { intros n1 n2 n3 a b c Ha Hb Hc. assert (0 <= a * n2 + b <= n1 * n2 - 1)%Z by nia. generalize dependent (a * n2 + b)%Z.
    generalize (n1 * n2)%Z. intros. nia. }
  destruct p as [[b r] c]. cbn [in_image position]. intros (H1 & H2 & H3).
  destruct m; [now apply X..|]. replace (nb * nr * nc)%Z with (nr * nc * nb)%Z by ring. now apply X.
Qed.

Section C36.
Variable FO : FloatOps.
Notation hdr := (hdr FO).

(** The header says: [nb] bands, [nr] rows, [nc] columns of type [d]. *)
Definition header_is (h : hdr) (nb nr nc : Z) (d : dtype) : Prop :=
  dims FO h = Ok (nb, nr, nc) /\ get_dtype FO h = Ok d.

Lemma supply_all f starts sh g : forall d, a_shape d = sh ->
  (forall p, In p starts -> let '(b, l, s) := p in fills f b l s sh (g p)) ->
  supply f starts d = Ok (List.concat (flat_map g starts)).
Proof.
  induction starts as [|[[b l] s] starts IH]; intros d E H; cbn [supply flat_map]; [reflexivity|].
  destruct (H _ (or_introl eq_refl) d E) as (d' & F & S & I). rewrite F. cbn [bind].
  rewrite (IH d' S); [|intros p Hp; apply H; now right]. cbn [bind]. unfold tobytes. rewrite I.
  f_equal. now rewrite concat_app.
Qed.

Lemma flat_map_flat_map {A B C} (f : B -> list C) (g : A -> list B) l : flat_map f (flat_map g l) = flat_map (fun x => flat_map f (g x)) l.
Proof. induction l as [|a l IH]; cbn; auto. now rewrite flat_map_app, IH. Qed.
Lemma map_flat_map {A B C} (f : B -> C) (g : A -> list B) l : map f (flat_map g l) = flat_map (fun x => map f (g x)) l.
Proof. induction l as [|a l IH]; cbn; auto. now rewrite map_app, IH. Qed.
Lemma flat_map_map {A B C} (f : B -> list C) (g : A -> B) l : flat_map f (map g l) = flat_map (fun x => f (g x)) l.
Proof. induction l as [|a l IH]; cbn; auto. now rewrite IH. Qed.

(** Writing gives exactly the pixels supplied, in the order of the mode. *)
Theorem C36_write m (h : hdr) f nb nr nc d px : header_is h nb nr nc d ->
  (0 <= nb)%Z -> (0 <= nr)%Z -> (0 <= nc)%Z -> supplies m f nb nr nc px ->
  write_image FO m h f = Ok (List.concat (map px (pixel_order m nb nr nc))).
Proof.
  intros (HD & HT) Hb Hr Hc HS. unfold write_image. rewrite HD. cbn [bind]. rewrite HT. cbn [bind].
  destruct m; unfold zeros; cbn [existsb].
  - replace (_ || _) with false by lia. cbn [bind].
    rewrite (supply_all f _ [nb; nr; nc] (fun _ => map px (pixel_order GAll nb nr nc))).
    3: { intros p [<-|[]]. exact HS. } 2: reflexivity.
    cbn [flat_map]. now rewrite app_nil_r.
  - replace (_ || _) with false by lia. cbn [bind].
    rewrite (supply_all f _ [nr; nc] (fun p => flat_map (fun r => map (fun c => px (fst (fst p), r, c)) (upto nc)) (upto nr))).
    + f_equal. f_equal. rewrite flat_map_map. cbn [pixel_order fst]. rewrite map_flat_map.
      apply flat_map_ext. intro b. rewrite map_flat_map. apply flat_map_ext. intro r. now rewrite map_map.
    + reflexivity.
    + intros p Hp. apply in_map_iff in Hp as (b & <- & Hb'). cbn [fst]. apply HS. now apply upto_in.
  - replace (_ || _) with false by lia. cbn [bind].
    rewrite (supply_all f _ [nc; nb] (fun p => flat_map (fun c => map (fun b => px (b, snd (fst p), c)) (upto nb)) (upto nc))).
    + f_equal. f_equal. rewrite flat_map_map. cbn [pixel_order fst snd]. rewrite map_flat_map.
      apply flat_map_ext. intro r. rewrite map_flat_map. apply flat_map_ext. intro c. now rewrite map_map.
    + reflexivity.
    + intros p Hp. apply in_map_iff in Hp as (r & <- & Hr'). cbn [fst snd]. apply HS. now apply upto_in.
Qed.

(** The size is bands * rows * columns * bytes. *)
Theorem C36_size m nb nr nc d (px : Z * Z * Z -> item) : (0 <= nb)%Z -> (0 <= nr)%Z -> (0 <= nc)%Z ->
  (forall p, in_image nb nr nc p -> Z.of_nat (List.length (px p)) = itemsize d) ->
  Z.of_nat (List.length (List.concat (map px (pixel_order m nb nr nc)))) = (nb * nr * nc * itemsize d)%Z.
Proof.
  intros Hb Hr Hc HL. rewrite (concat_len _ (Z.to_nat (itemsize d))).
  - rewrite map_length, Nat2Z.inj_mul, order_len by auto. rewrite Z2Nat.id; [ring|destruct d; cbn; lia].
  - apply Forall_forall. intros x Hx. apply in_map_iff in Hx as (p & <- & Hp). apply C36_each_once in Hp. specialize (HL p Hp). lia.
Qed.

(** What the reader takes: nothing compressed, nothing of one bit per pixel, one block per row, and
    either rows of interleaved pixels or a single block (of either order).  The array is then of the
    shape and type of the header, at the place given, inside the file. *)
Definition field_is (h : hdr) (nm : string) (v : pyval FO) (r : bool) : Prop :=
  exists x, iget FO h nm = Ok x /\ py_eqb FO x v = Ok r.
Lemma ieq_is h nm v r : ieq FO h nm v = Ok r -> field_is h nm v r.
Proof. unfold ieq, field_is. intro E. apply bind_ok in E as (x & E1 & E2). eauto. Qed.
Theorem C36_taken (h : hdr) file pos a p : np_read FO h file pos = Ok (Some (a, p)) ->
  exists nb nr nc d, dims FO h = Ok (nb, nr, nc) /\ get_dtype FO h = Ok d
  /\ mp_dims a = (nb, nr, nc) /\ mp_dt a = d /\ mp_off a = pos
  /\ p = (pos + nb * nr * nc * itemsize d)%Z /\ (p <= Z.of_nat (List.length file))%Z
  /\ field_is h "ic" (VStr (str "NC")) true /\ field_is h "nbpp" (VInt 1) false
  /\ field_is h "nbpr" (VInt 1) true
  /\ (mp_strides a = (itemsize d, nb * nc * itemsize d, nb * itemsize d)%Z
       /\ field_is h "imode" (VStr (str "P")) true
       /\ (exists b r c, shape FO h = Ok (b, r, c) /\ field_is h "nbpc" r true /\ field_is h "nppbh" c true)
      \/ mp_strides a = (nr * nc * itemsize d, nc * itemsize d, itemsize d)%Z
         /\ field_is h "nbpc" (VInt 1) true
         /\ (field_is h "imode" (VStr (str "B")) true \/ field_is h "imode" (VStr (str "P")) true)).
Proof.
  unfold np_read. intro E. apply bind_ok in E as ([[il d]|] & P & E); [|discriminate].
  apply bind_ok in E as (m & M & E). injection E as -> <-.
  unfold np_map in M. apply bind_ok in M as ([[nb nr] nc] & D & M).
  destruct (_ || _); [discriminate|]. destruct (_ <? _)%Z eqn:L in M; [destruct il; discriminate|]. injection M as <-.
  unfold mp_size in L |- *. cbn [mp_dims mp_dt mp_off mp_strides] in *.
  unfold np_plan in P.
  apply bind_ok in P as (ic & IC & P). destruct ic; [|discriminate]. cbn [negb] in P.
  apply bind_ok in P as (pm & PM & P). apply bind_ok in P as (s1 & S1 & P). apply bind_ok in P as (s2 & S2 & P).
  apply bind_ok in P as (s3 & S3 & P). apply bind_ok in P as (ok & OK & P).
  destruct ok; [|discriminate]. cbn [negb] in P. apply bind_ok in P as (one & ONE & P). destruct one; [discriminate|].
  destruct (get_dtype FO h) as [d'|e] eqn:T; [|destruct e; discriminate]. injection P as <- <-.
  exists nb, nr, nc, d'. split; [exact D|]. do 4 (split; [reflexivity|]). split; [ring|]. split; [lia|].
  split; [now apply ieq_is|]. split; [now apply ieq_is|].
  destruct s3.
  - destruct s2; [|discriminate]. destruct s1; [|discriminate]. destruct pm; [|discriminate].
    split; [now apply ieq_is|]. left. split; [reflexivity|]. split; [now apply ieq_is|].
    apply bind_ok in S2 as ([[b r] c] & SH & S2). apply bind_ok in S3 as ([[b' r'] c'] & SH' & S3).
    rewrite SH in SH'. injection SH' as <- <- <-. exists b, r, c. split; [exact SH|]. split; now apply ieq_is.
  - apply bind_ok in OK as (b1 & B1 & OK). apply bind_ok in OK as (b2 & B2 & OK).
    destruct b2; [|discriminate]. destruct b1; [|discriminate]. cbn [negb] in OK.
    apply bind_ok in OK as (mb & MB & OK). injection OK as OK.
    split; [now apply ieq_is|]. right. split; [reflexivity|]. split; [now apply ieq_is|].
    apply orb_true_iff in OK as [-> | ->]; [left|right]; now apply ieq_is.
Qed.

(** The reader finds every pixel where the writer put it and goes to the end of the data. *)
Definition interleaved (m : gen_mode) : bool := match m with GRowP => true | _ => false end.
Theorem C36_read m (h : hdr) nb nr nc d (px : Z * Z * Z -> item) pre post : header_is h nb nr nc d ->
  (0 <= nb)%Z -> (0 <= nr)%Z -> (0 <= nc)%Z ->
  np_plan FO h = Ok (Some (interleaved m, d)) ->
  (forall p, in_image nb nr nc p -> Z.of_nat (List.length (px p)) = itemsize d) ->
  let data := List.concat (map px (pixel_order m nb nr nc)) in
  exists a, np_read FO h (pre ++ data ++ post) (Z.of_nat (List.length pre))
      = Ok (Some (a, Z.of_nat (List.length (pre ++ data))))
    /\ forall b r c, in_image nb nr nc (b, r, c) -> mp_item (pre ++ data ++ post) a b r c = px (b, r, c).
Proof.
  intros (HD & HT) Hb Hr Hc HP HL data.
  assert (SZ : Z.of_nat (List.length data) = (nb * nr * nc * itemsize d)%Z) by now apply C36_size.
  unfold np_read. rewrite HP. cbn [bind]. unfold np_map. rewrite HD. cbn [bind].
  replace ((nb <? 0)%Z || (nr <? 0)%Z || (nc <? 0)%Z) with false by lia.
  unfold mp_size at 1. cbn [mp_dims mp_dt].
  replace (_ <? _)%Z with false by (rewrite !app_length; lia). cbn [bind].
  eexists. split; [do 3 f_equal; unfold mp_size; cbn [mp_dims mp_dt]; rewrite app_length; lia|].
  intros b r c Hp. unfold mp_item. cbn [mp_strides mp_off mp_dt].
  set (isz := itemsize d) in *. assert (Hi : (1 <= isz)%Z) by (unfold isz; destruct d; cbn; lia).
  assert (E : forall o, o = (isz * position m nb nr nc (b, r, c))%Z -> 
    firstn (Z.to_nat isz) (skipn (Z.to_nat (Z.of_nat (List.length pre) + o)) (pre ++ data ++ post)) = px (b, r, c)).
  { intros o ->. assert (PB := order_nth m nb nr nc (b, r, c) (0, 0, 0)%Z Hp).
    set (q := position m nb nr nc (b, r, c)) in *.
    assert (Hq := position_range m nb nr nc _ Hp). fold q in Hq.
    assert (Hl : (Z.to_nat q < List.length (pixel_order m nb nr nc))%nat) by (assert (X := order_len m nb nr nc Hb Hr Hc); lia).
    replace (Z.to_nat (Z.of_nat (List.length pre) + isz * q)) with (List.length pre + Z.to_nat q * Z.to_nat isz)%nat by nia.
    rewrite skipn_app. rewrite (skipn_all2 pre) by lia. cbn [app].
    replace (List.length pre + Z.to_nat q * Z.to_nat isz - List.length pre)%nat with (Z.to_nat q * Z.to_nat isz)%nat by lia.
    unfold data. rewrite concat_item.
    - rewrite (nth_indep _ [] (px (0, 0, 0)%Z)) by (rewrite map_length; lia). rewrite map_nth. now rewrite PB.
    - apply Forall_forall. intros x Hx. apply in_map_iff in Hx as (p & <- & Hp'). apply C36_each_once in Hp'. specialize (HL p Hp'). lia.
    - now rewrite map_length. }
  destruct m; cbn [interleaved].
  - rewrite <- !Z.add_assoc. apply E. cbn [position]. ring.
  - rewrite <- !Z.add_assoc. apply E. cbn [position]. ring.
  - rewrite <- !Z.add_assoc. apply E. cbn [position]. ring.
Qed.

(** What a header says about the layout of its image. *)
Record layout (h : hdr) (m : gen_mode) (nrow ncol : Z) (d : dtype) (n : Z) : Prop := {
  ly_bands : number_band FO h = Ok (VInt n);
  ly_rows : iget FO h "nrows" = Ok (VInt nrow);
  ly_cols : iget FO h "ncols" = Ok (VInt ncol);
  ly_nbpr : iget FO h "nbpr" = Ok (VInt 1);
  ly_nbpc : iget FO h "nbpc" = Ok (VInt (match m with GRowP => nrow | _ => 1 end));
  ly_nppbh : iget FO h "nppbh" = Ok (VInt ncol);
  ly_nbpp : iget FO h "nbpp" = Ok (VInt (fst (dtype_fields d)));
  ly_pv : iget FO h "pvtype" = Ok (VStr (str (snd (dtype_fields d))));
  ly_ic : iget FO h "ic" = Ok (VStr (str "NC"));
  ly_imode : iget FO h "imode" = Ok (VStr (str (match m with GRowP => "P" | _ => "B" end)))
}.

Lemma says_layout h m nr nc d n : says FO h m nr nc d n -> layout h m nr nc d n.
Proof.
  intros []. constructor.
  - now apply bands_get.
  - apply iget_int; auto; cbn; tauto.
  - apply iget_int; auto; cbn; tauto.
  - apply iget_int; auto; cbn; tauto.
  - apply iget_int; auto; cbn; tauto.
  - apply iget_int; auto; cbn; tauto.
  - apply iget_int; auto; cbn; tauto.
  - apply iget_str; auto; [cbn; tauto|destruct d; reflexivity].
  - apply iget_str; auto; cbn; tauto.
  - apply iget_str; auto; [cbn; tauto|destruct m; reflexivity].
Qed.

Lemma layout_is h m nr nc d n : layout h m nr nc d n ->
  header_is h n nr nc d /\ np_plan FO h = Ok (Some (interleaved m, d)).
Proof.
  intros []. assert (T : get_dtype FO h = Ok d) by now apply dtype_of_fields.
  assert (S : shape FO h = Ok (VInt n, VInt nr, VInt nc)) by (unfold shape; rewrite ly_bands0, ly_rows0, ly_cols0; reflexivity).
  split.
  - split; [|exact T]. unfold dims. rewrite S. reflexivity.
  - unfold np_plan, ieq. rewrite ly_ic0. cbn [bind]. rewrite ly_imode0. cbn [bind]. rewrite ly_nbpr0, S. rewrite ly_nbpc0, ly_nppbh0, T.
    destruct m; cbn [bind].
    + rewrite ly_nbpp0. destruct d; reflexivity.
    + rewrite ly_nbpp0. destruct d; reflexivity.
    + change (py_eqb FO (VStr (str "P")) (VStr (str "P"))) with (Ok true).
      assert (I : forall z, py_eqb FO (VInt z) (VInt z) = Ok true) by (intro z; cbn [py_eqb as_Z bind]; now rewrite Z.eqb_refl).
      change (py_eqb FO (VStr (str "NC")) (VStr (str "NC"))) with (Ok true). cbn [bind negb]. repeat (rewrite !I; cbn [bind negb]).
      rewrite ly_nbpp0. destruct d; reflexivity.
Qed.

Lemma layout_kept h st1 m nr nc d n :
  (forall nm v, kept irows nm = true -> get FO ifs (h_st h) nm [] = Ok v -> get FO ifs st1 nm [] = Ok v) ->
  layout h m nr nc d n -> layout {| h_st := st1; h_attr := [] |} m nr nc d n.
Proof.
  intros K Y.
  assert (Q : forall (h : hdr) nm, In nm ("xbands" :: plain_names)%string -> iget FO h nm = get FO ifs (h_st h) nm []).
  { intros h0 nm Hnm. unfold iget, hget. destruct Hnm as [<-|Hnm]; [destruct xbands_fld as (-> & _); reflexivity|].
    destruct (plain_fld nm Hnm) as (-> & _). reflexivity. }
  assert (T : forall nm v, In nm ("xbands" :: plain_names)%string -> kept irows nm = true ->
                iget FO h nm = Ok v -> iget FO {| h_st := st1; h_attr := [] |} nm = Ok v).
  { intros nm v Hn Hk E. rewrite Q in * by exact Hn. exact (K nm v Hk E). }
  destruct Y. constructor; try (apply T; [cbn; tauto|vm_compute; reflexivity|assumption]).
  unfold number_band, iint, hint in *. fold (iget FO h "nbands") in *.
  fold (iget FO {| h_st := st1; h_attr := [] |} "nbands").
  assert (T1 := T "nbands"%string). remember (iget FO h "nbands") as r eqn:EV. destruct r as [v|]; [|discriminate ly_bands0].
  rewrite (T1 v ltac:(cbn; tauto) ltac:(vm_compute; reflexivity) eq_refl). cbn [bind] in *.
  destruct v as [| | z | | |]; try discriminate ly_bands0. cbn [bind] in *. destruct (z >? 0)%Z; [exact ly_bands0|].
  apply T; [cbn; tauto|vm_compute; reflexivity|assumption].
Qed.

(** A new image of the library, written after its subheader anywhere in a file: the data has the
    expected size, and reading subheader and data gives every pixel supplied. *)
Theorem C36_round_trip m nrow ncol be d n a sec f (px : Z * Z * Z -> item) h hb pre post lit s0 :
  FloatLaws FO -> (1 <= n)%Z -> (0 <= nrow)%Z -> (0 <= ncol)%Z -> marking FO sec ->
  new_image FO m nrow ncol (Np be d) n a sec = (h, Ok tt) ->
  write FO ifs (h_st h) = Ok hb ->
  supplies m f n nrow ncol px ->
  (forall p, in_image n nrow ncol p -> Z.of_nat (List.length (px p)) = itemsize d) ->
  exists out st1 arr, write_image FO m h f = Ok out
    /\ Z.of_nat (List.length out) = (n * nrow * ncol * itemsize d)%Z
    /\ read FO ifs lit s0 (hb ++ out ++ post) = Ok (st1, out ++ post)
    /\ np_read FO {| h_st := st1; h_attr := [] |} ((pre ++ hb) ++ out ++ post) (Z.of_nat (List.length (pre ++ hb)))
       = Ok (Some (arr, Z.of_nat (List.length ((pre ++ hb) ++ out))))
    /\ forall b r c, in_image n nrow ncol (b, r, c) -> mp_item ((pre ++ hb) ++ out ++ post) arr b r c = px (b, r, c).
Proof.
  intros laws Hn Hr Hc HM HN HW HS HL.
  destruct (new_image_ok FO m nrow ncol be d n a sec Hn HM) as (h' & E & Y). rewrite HN in E. injection E as <-.
  assert (Y' := says_layout _ _ _ _ _ _ Y). destruct (layout_is _ _ _ _ _ _ Y') as (HI & HP).
  assert (W := C36_write m h f n nrow ncol d px HI ltac:(lia) Hr Hc HS).
  set (out := List.concat (map px (pixel_order m n nrow ncol))) in *.
  assert (LI : literals_ok FO ifs (h_st h)) by (apply no_literals_ok; apply (sy_clean _ _ _ _ _ _ _ Y)).
  destruct (kept_get FO irows laws irows_wf (h_st h) s0 lit hb (out ++ post) LI HW) as (st1 & R & K).
  assert (Y1 := layout_kept h st1 m nrow ncol d n K Y'). destruct (layout_is _ _ _ _ _ _ Y1) as (HI1 & HP1).
  destruct (C36_read m _ n nrow ncol d px (pre ++ hb) post HI1 ltac:(lia) Hr Hc HP1 HL) as (arr & R1 & R2).
  exists out, st1, arr. repeat split; auto. apply C36_size; auto. lia.
Qed.

(** [NitfImageWriteNumpy] writes its array in one piece. *)
Theorem C36_numpy data n nrow ncol px : a_shape data = [n; nrow; ncol] ->
  a_items data = map px (pixel_order GAll n nrow ncol) -> supplies GAll (numpy_supplier data) n nrow ncol px.
Proof.
  intros S I d Hd. exists data. unfold numpy_supplier. rewrite Hd, S. destruct (list_eq_dec _ _ _); [auto|contradiction].
Qed.
End C36.

(** ** Examples, and where the claims fail *)
Definition ex_args : img_args :=
  {| ia_iid1 := str "Test"; ia_iid2 := str "second"; ia_idatim := str "20200102030405"; ia_irep := str "MONO";
     ia_icat := str "VIS"; ia_idlvl := 1 |}.
Definition ex_px : Z * Z * Z -> item := fun p => let '(b, r, c) := p in [Z.to_N (10 * b + r); Z.to_N c].
(** A callback for any mode: three dimensions mean the whole image, otherwise a band or a row. *)
Definition ex_supplier (m : gen_mode) : supplier := fun d b l s =>
  match m, a_shape d with
  | GAll, [nb; nr; nc] => Ok {| a_shape := a_shape d; a_items := map ex_px (pixel_order GAll nb nr nc) |}
  | GBand, [nr; nc] => Ok {| a_shape := a_shape d;
      a_items := flat_map (fun r => map (fun c => ex_px (b, r, c)) (upto nc)) (upto nr) |}
  | GRowP, [nc; nb] => Ok {| a_shape := a_shape d;
      a_items := flat_map (fun c => map (fun b => ex_px (b, l, c)) (upto nb)) (upto nc) |}
  | _, _ => Err EIndex
  end.
Lemma ex_supplies m nb nr nc : supplies m (ex_supplier m) nb nr nc ex_px.
Proof. destruct m; cbn [supplies]; intros; intros d' E; eexists; (split; [unfold ex_supplier; rewrite E; reflexivity|]); auto. Qed.

Definition ex_hdr FO m (t : dtype) nr nc n := fst (new_image FO m nr nc (Np true t) n ex_args (sec_default FO)).
Definition is_okb {A} (r : res A) : bool := match r with Ok _ => true | Err _ => false end.

Lemma ex_marking FO : marking FO (sec_default FO).
Proof. intros []; cbn; eauto; eexists; split; reflexivity. Qed.

(** All modes: 12 bands of 2 by 3 pixels; the header can be written. *)
Example C36_ex FO m : let h := ex_hdr FO m U2 2 3 12 in
  is_okb (write FO ifs (h_st h)) = true /\ number_band FO h = Ok (VInt 12)
  /\ write_image FO m h (ex_supplier m) = Ok (List.concat (map ex_px (pixel_order m 12 2 3)))
  /\ np_plan FO h = Ok (Some (interleaved m, U2)).
Proof. destruct m; vm_compute; auto. Qed.
Example C36_ex_order : pixel_order GRowP 2 1 2 = [(0, 0, 0); (1, 0, 0); (0, 0, 1); (1, 0, 1)]%Z
  /\ pixel_order GBand 2 1 2 = [(0, 0, 0); (0, 0, 1); (1, 0, 0); (1, 0, 1)]%Z.
Proof. now vm_compute. Qed.

(** Finding 15: 128 bit pixels are accepted and read back as such, but the header cannot be
    written: the bit count has two digits.  64 bit pixels can. *)
Theorem C35_c16_refuted FO : let (h, r) := new_image FO GAll 1 1 (Np true C16) 1 ex_args (sec_default FO) in
  r = Ok tt /\ get_dtype FO h = Ok C16 /\ write FO ifs (h_st h) = Err ERuntime
  /\ is_okb (write FO ifs (h_st (ex_hdr FO GAll C8 1 1 1))) = true.
Proof. vm_compute. auto. Qed.
(** The same for images of 10000 or more rows or columns: block sizes have four digits. *)
Theorem C35_large_refuted FO : 
  is_okb (write FO ifs (h_st (ex_hdr FO GAll U1 9999 9999 1))) = true
  /\ write FO ifs (h_st (ex_hdr FO GAll U1 9999 10000 1)) = Err ERuntime
  /\ write FO ifs (h_st (ex_hdr FO GAll U1 10000 9999 1)) = Err ERuntime.
Proof. vm_compute. auto. Qed.

(** Finding 16: [NitfImageWriteNumpy] with any mode other than the whole image raises. *)
Theorem C36_numpy_modes_refuted FO data :
  write_image FO GBand (ex_hdr FO GBand U1 2 3 1) (numpy_supplier data) = Err EIndex
  /\ write_image FO GRowP (ex_hdr FO GRowP U1 2 3 1) (numpy_supplier data) = Err EIndex.
Proof. vm_compute. auto. Qed.

(** Finding 16: a header that says "pixel interleaved" in one block per row and column with two
    bands, two rows, two columns is read as if band sequential. *)
Definition set_imode FO (h : TrePlace.hdr FO) : TrePlace.hdr FO := fst (iset FO "imode" (VStr (str "P")) h).
Theorem C36_interleave_refuted FO : exists h a, iget FO h "imode" = Ok (VStr (str "P"))
  /\ dims FO h = Ok (2, 2, 2)%Z
  /\ np_read FO h (List.concat (map (fun p => let '(b, r, c) := p in [Z.to_N (4 * b + 2 * r + c)]) (pixel_order GRowP 2 2 2))) 0 = Ok (Some (a, 8%Z))
  /\ mp_item (List.concat (map (fun p => let '(b, r, c) := p in [Z.to_N (4 * b + 2 * r + c)]) (pixel_order GRowP 2 2 2))) a 1 0 0 = [2%N].
Proof. exists (set_imode FO (ex_hdr FO GAll U1 2 2 2)). eexists. vm_compute. auto. Qed.

(** The same header with a compression, or with other blocks, is not taken; left as it is, it is. *)
Example C36_taken_ex FO : let h := ex_hdr FO GAll U1 2 2 1 in
  let rd h := match np_read FO h (repeat 7%N 10) 3 with Ok (Some (a, p)) => (p =? 7)%Z | _ => false end in
  rd h = true
  /\ rd (fst (iset FO "ic" (VStr (str "C8")) h)) = false /\ rd (fst (iset FO "nbpr" (VInt 2) h)) = false
  /\ rd (fst (iset FO "imode" (VStr (str "R")) h)) = false.
Proof. vm_compute. auto. Qed.

Example C35_bands_ex FO : let h := fst (set_number_band FO 12 {| h_st := init_state FO; h_attr := [] |}) in
  iget FO h "nbands" = Ok (VInt 0) /\ iget FO h "xbands" = Ok (VInt 12)
  /\ number_band FO (fst (set_number_band FO 9 h)) = Ok (VInt 9).
Proof. vm_compute. auto. Qed.
Example C35_dtype_ex FO : forall d, let h := fst (set_dtype FO (Np false d) {| h_st := init_state FO; h_attr := [] |}) in
  get_dtype FO h = Ok d.
Proof. intros []; vm_compute; reflexivity. Qed.

Print Assumptions C35_bands.
Print Assumptions C35_dtype.
Example C35_reads_ex FO : let h := fst (set_dtype FO (Np false U1) {| h_st := init_state FO; h_attr := [] |}) in
  get_dtype FO (fst (iset FO "pvtype" (VStr (str "B")) h)) = Err ERuntime /\ get_dtype FO (fst (iset FO "nbpp" (VInt 12) h)) = Err ERuntime.
Proof. vm_compute. auto. Qed.
Print Assumptions C35_unknown.
Print Assumptions C35_reads.
Print Assumptions C35_c16_refuted.
Print Assumptions C35_large_refuted.
Print Assumptions C36_each_once.
Print Assumptions C36_write.
Print Assumptions C36_size.
Print Assumptions C36_taken.
Print Assumptions C36_read.
Print Assumptions C36_round_trip.
Print Assumptions C36_numpy.
Print Assumptions C36_numpy_modes_refuted.
Print Assumptions C36_interleave_refuted.
