(** Property C36, images of which a callback supplies only a part. *)
From Verif Require Import Base BaseLemmas Engine Spec DescsHdr Tre TrePlace Security P_Security Image ImageLemmas ImageNew P_Image.
From Coq Require Import ZifyBool ZifyNat ZifyN.
Open Scope list_scope.
Ltac Zify.zify_post_hook ::= idtac.

(** The pixels the callback is asked for at once, in the order of the array it is given. *)
Definition piece (m : gen_mode) (nb nr nc : Z) (k : Z) : list (Z * Z * Z) :=
  match m with
  | GAll => pixel_order GAll nb nr nc
  | GBand => flat_map (fun r => map (fun c => (k, r, c)) (upto nc)) (upto nr)
  | GRowP => flat_map (fun c => map (fun b => (b, k, c)) (upto nb)) (upto nc)
  end.
(** The callback puts the pixels it has, [g p = Some _], into the array and leaves the others. *)
Definition puts (f : supplier) (b l s : Z) (sh : list Z) (ps : list (Z * Z * Z)) (g : Z * Z * Z -> option item) : Prop :=
  forall d, a_shape d = sh -> List.length (a_items d) = List.length ps ->
  exists d', f d b l s = Ok d' /\ a_shape d' = sh
    /\ a_items d' = map (fun q => match g (fst q) with Some x => x | None => snd q end) (combine ps (a_items d)).
Definition supplies_some (m : gen_mode) (f : supplier) (nb nr nc : Z) (g : Z * Z * Z -> option item) : Prop :=
  match m with
  | GAll => puts f 0 0 0 [nb; nr; nc] (piece GAll nb nr nc 0) g
  | GBand => forall b, (0 <= b < nb)%Z -> puts f b 0 0 [nr; nc] (piece GBand nb nr nc b) g
  | GRowP => forall r, (0 <= r < nr)%Z -> puts f 0 r 0 [nc; nb] (piece GRowP nb nr nc r) g
  end.

(** [x] is the value given last, at [n] or before, or [z] if none was. *)
Definition last_given (g : Z -> option item) (z : item) (n : Z) (x : item) : Prop :=
  (exists k, (0 <= k <= n)%Z /\ g k = Some x /\ forall j, (k < j <= n)%Z -> g j = None)
  \/ x = z /\ forall j, (0 <= j <= n)%Z -> g j = None.
(** What is written for a pixel: as one piece, what was supplied or zero; band by band, what
    was last supplied for that row and column in this or an earlier band; row by row the same
    with the rows. *)
Definition written (m : gen_mode) (g : Z * Z * Z -> option item) (z : item) (p : Z * Z * Z) (x : item) : Prop :=
  let '(b, r, c) := p in
  match m with
  | GAll => g p = Some x \/ g p = None /\ x = z
  | GBand => last_given (fun k => g (k, r, c)) z b x
  | GRowP => last_given (fun k => g (b, k, c)) z r x
  end.

Fixpoint before (g : nat -> option item) (z : item) (k : nat) : item :=
  match k with O => z | S k' => match g k' with Some x => x | None => before g z k' end end.

Lemma before_last (g : Z -> option item) z n : (0 <= n)%Z ->
  last_given g z n (before (fun i => g (Z.of_nat i)) z (S (Z.to_nat n))).
Proof.
  intro H. rewrite <- (Z2Nat.id n H) at 1. clear H. induction (Z.to_nat n) as [|k IH].
  - cbn [before]. destruct (g (Z.of_nat 0)) as [x|] eqn:E.
    + left. exists 0%Z. split; [lia|]. split; [exact E|]. intros j Hj. lia.
    + right. split; [reflexivity|]. intros j Hj. now replace j with (Z.of_nat 0) by lia.
  - remember (S k) as k'. cbn [before]. subst k'. destruct (g (Z.of_nat (S k))) as [x|] eqn:E.
    + left. exists (Z.of_nat (S k)). split; [lia|]. split; [exact E|]. intros j Hj. lia.
    + destruct IH as [(i & Hi & G & N)|(X & N)].
      * left. exists i. split; [lia|]. split; [exact G|]. intros j Hj.
        destruct (Z.eq_dec j (Z.of_nat (S k))) as [->|]; [exact E|apply N; lia].
      * right. split; [exact X|]. intros j Hj. destruct (Z.eq_dec j (Z.of_nat (S k))) as [->|]; [exact E|apply N; lia].
Qed.

Lemma combine_map_l {A B C} (h : A -> B) (h' : A -> C) l : combine (map h l) (map h' l) = map (fun x => (h x, h' x)) l.
Proof. induction l as [|a l IH]; cbn; congruence. Qed.

Lemma supply_some {C} f (g : Z * Z * Z -> option item) z sh (cells : list C) (at_ : nat -> C -> Z * Z * Z) (st : nat -> Z * Z * Z) N :
  (forall k, (k < N)%nat -> let '(b, l, s) := st k in puts f b l s sh (map (at_ k) cells) g) ->
  forall n k d, (k + n <= N)%nat -> a_shape d = sh ->
    a_items d = map (fun c => before (fun j => g (at_ j c)) z k) cells ->
    supply f (map st (seq k n)) d
    = Ok (List.concat (flat_map (fun i => map (fun c => before (fun j => g (at_ j c)) z (S i)) cells) (seq k n))).
Proof.
  intro HF. induction n as [|n IH]; intros k d HN HS HI; [reflexivity|].
  cbn [seq map flat_map]. destruct (st k) as [[b l] s] eqn:ES. cbn [supply].
  assert (P := HF k ltac:(lia)). rewrite ES in P. destruct (P d HS) as (d' & F & S' & I).
  { now rewrite HI, !map_length. }
  rewrite F. cbn [bind].
  assert (I' : a_items d' = map (fun c => before (fun j => g (at_ j c)) z (S k)) cells).
  { rewrite I, HI, combine_map_l, map_map. reflexivity. }
  rewrite (IH (S k) d' ltac:(lia) S' I'). cbn [bind]. unfold tobytes. rewrite I', concat_app. reflexivity.
Qed.

Lemma map_repeat {A B} (x : B) (l : list A) : map (fun _ => x) l = repeat x (List.length l).
Proof. induction l as [|a l IH]; cbn; congruence. Qed.

Section Part.
Variable FO : FloatOps.
Notation hdr := (hdr FO).

(** C36: every pixel is written once, in the order of the mode; those not supplied are zero,
    of the size of the type, or what the array had from the band or row before. *)
Theorem C36_partly m (h : hdr) f nb nr nc d g : header_is FO h nb nr nc d ->
  (0 <= nb)%Z -> (0 <= nr)%Z -> (0 <= nc)%Z -> supplies_some m f nb nr nc g ->
  exists px, write_image FO m h f = Ok (List.concat (map px (pixel_order m nb nr nc)))
    /\ forall p, in_image nb nr nc p -> written m g (repeat 0%N (Z.to_nat (itemsize d))) p (px p).
Proof.
  intros (HD & HT) Hb Hr Hc HS. set (z := repeat 0%N (Z.to_nat (itemsize d))).
  unfold write_image. rewrite HD. cbn [bind]. rewrite HT. cbn [bind].
  destruct m; unfold zeros; cbn [existsb]; (replace (_ || _) with false by lia); cbn [bind]; fold z.
  - exists (fun p => match g p with Some x => x | None => z end). split.
    + assert (X := supply_some f g z [nb; nr; nc] (pixel_order GAll nb nr nc) (fun _ p => p) (fun _ => (0, 0, 0)%Z) 1).
      cbn beta in X. specialize (X ltac:(intros k Hk; rewrite map_id; exact HS) 1%nat 0%nat
        {| a_shape := [nb; nr; nc]; a_items := repeat z (Z.to_nat (fold_right Z.mul 1%Z [nb; nr; nc])) |}).
      cbn [seq map flat_map before] in X. rewrite app_nil_r in X. apply X; [lia|reflexivity|].
      cbn [a_items]. rewrite map_repeat. f_equal. assert (L := order_len GAll nb nr nc Hb Hr Hc). cbn [fold_right]. lia.
    + intros [[b r] c] _. cbn [written]. destruct (g (b, r, c)); auto.
  - exists (fun p => let '(b, r, c) := p in before (fun j => g (Z.of_nat j, r, c)) z (S (Z.to_nat b))). split.
    + unfold upto at 1. rewrite map_map.
      assert (X := supply_some f g z [nr; nc] (flat_map (fun r => map (fun c => (r, c)) (upto nc)) (upto nr))
        (fun k rc => (Z.of_nat k, fst rc, snd rc)) (fun k => (Z.of_nat k, 0, 0)%Z) (Z.to_nat nb)).
      cbn beta in X. rewrite (X ltac:(intros k Hk; rewrite map_flat_map;
          specialize (HS (Z.of_nat k) ltac:(lia)); unfold piece in HS;
          erewrite flat_map_ext; [exact HS|]; intro r; rewrite map_map; reflexivity)).
      * f_equal. f_equal. cbn [pixel_order]. rewrite map_flat_map. change (upto nb) with (map Z.of_nat (seq 0 (Z.to_nat nb))). rewrite flat_map_map.
        apply flat_map_ext. intro b. rewrite !map_flat_map. apply flat_map_ext. intro r. rewrite !map_map.
        apply map_ext. intro c. cbn [fst snd]. now rewrite Nat2Z.id.
      * lia.
      * reflexivity.
      * cbn [a_items before]. rewrite map_repeat. f_equal.
        rewrite (flat_map_len _ _ (Z.to_nat nc)) by (intros; now rewrite map_length, upto_len). rewrite upto_len. cbn [fold_right]. nia.
    + intros [[b r] c] (B & R & C). cbn [written]. apply (before_last (fun k => g (k, r, c))). lia.
  - exists (fun p => let '(b, r, c) := p in before (fun j => g (b, Z.of_nat j, c)) z (S (Z.to_nat r))). split.
    + unfold upto at 1. rewrite map_map.
      assert (X := supply_some f g z [nc; nb] (flat_map (fun c => map (fun b => (b, c)) (upto nb)) (upto nc))
        (fun k bc => (fst bc, Z.of_nat k, snd bc)) (fun k => (0, Z.of_nat k, 0)%Z) (Z.to_nat nr)).
      cbn beta in X. rewrite (X ltac:(intros k Hk; rewrite map_flat_map;
          specialize (HS (Z.of_nat k) ltac:(lia)); unfold piece in HS;
          erewrite flat_map_ext; [exact HS|]; intro c; rewrite map_map; reflexivity)).
      * f_equal. f_equal. cbn [pixel_order]. rewrite map_flat_map. change (upto nr) with (map Z.of_nat (seq 0 (Z.to_nat nr))). rewrite flat_map_map.
        apply flat_map_ext. intro r. rewrite !map_flat_map. apply flat_map_ext. intro c. rewrite !map_map.
        apply map_ext. intro b. cbn [fst snd]. now rewrite Nat2Z.id.
      * lia.
      * reflexivity.
      * cbn [a_items before]. rewrite map_repeat. f_equal.
        rewrite (flat_map_len _ _ (Z.to_nat nb)) by (intros; now rewrite map_length, upto_len). rewrite upto_len. cbn [fold_right]. nia.
    + intros [[b r] c] (B & R & C). cbn [written]. apply (before_last (fun k => g (b, k, c))). lia.
Qed.

(** Of a callback that supplies nothing comes an image of zeros, of full size. *)
Theorem C36_untouched m (h : hdr) nb nr nc d : header_is FO h nb nr nc d ->
  (0 <= nb)%Z -> (0 <= nr)%Z -> (0 <= nc)%Z ->
  write_image FO m h (fun a _ _ _ => Ok a) = Ok (repeat 0%N (Z.to_nat (nb * nr * nc * itemsize d))).
Proof.
  intros HI Hb Hr Hc.
  assert (P : forall b l s sh ps, puts (fun a _ _ _ => Ok a) b l s sh ps (fun _ => None)).
  { intros b l s sh ps a S L. exists a. split; [reflexivity|]. split; [exact S|]. cbn beta.
    revert L. generalize (a_items a). induction ps as [|q ps IH]; intros [|x l'] L; try discriminate L; [reflexivity|].
    cbn in *. f_equal. apply IH. lia. }
  destruct (C36_partly m h (fun a _ _ _ => Ok a) nb nr nc d (fun _ => None) HI Hb Hr Hc) as (px & W & E).
  { destruct m; cbn [supplies_some]; intros; apply P. }
  rewrite W. f_equal. set (z := repeat 0%N (Z.to_nat (itemsize d))) in *.
  assert (Q : forall p, In p (pixel_order m nb nr nc) -> px p = z).
  { intros p Hp. apply C36_each_once in Hp. specialize (E p Hp). destruct p as [[b r] c]. destruct m; cbn [written] in E.
    - destruct E as [E|[_ E]]; [discriminate E|exact E].
    - destruct E as [(k & _ & E & _)|(E & _)]; [discriminate E|exact E].
    - destruct E as [(k & _ & E & _)|(E & _)]; [discriminate E|exact E]. }
  rewrite (map_ext_in _ _ _ Q), map_repeat.
  assert (L := order_len m nb nr nc Hb Hr Hc).
  assert (D : (0 <= itemsize d)%Z) by (destruct d; cbn; lia).
  replace (Z.to_nat (nb * nr * nc * itemsize d)) with (List.length (pixel_order m nb nr nc) * Z.to_nat (itemsize d))%nat by nia.
  generalize (List.length (pixel_order m nb nr nc)). intro n. unfold z. induction n as [|n IH]; [reflexivity|].
  cbn [repeat List.concat Nat.mul]. rewrite IH. symmetry. apply repeat_app.
Qed.
End Part.

(** ** Cases *)

(** Supplies the first band (or row) only. *)
Definition first_only : supplier := fun a b l s =>
  if (b =? 0)%Z && (l =? 0)%Z then Ok {| a_shape := a_shape a; a_items := map (fun _ => [9]%N) (a_items a) |} else Ok a.

(** Finding 54: the same array is used for all bands, so what a callback does not supply is not
    zero but the data of the band before; as one piece it is zero. *)
Theorem C36_unsupplied_refuted FO : exists (h : TrePlace.hdr FO) g, header_is FO h 2 1 2 U1
  /\ supplies_some GBand first_only 2 1 2 g /\ g (1, 0, 0)%Z = None
  /\ write_image FO GBand h first_only = Ok [9; 9; 9; 9]%N.
Proof.
  exists (ex_hdr FO GBand U1 1 2 2), (fun p => if (fst (fst p) =? 0)%Z then Some [9%N] else None).
  split; [split; vm_compute; reflexivity|]. split; [|split; [reflexivity|vm_compute; reflexivity]].
  intros b Hb a S L. assert (B : b = 0%Z \/ b = 1%Z) by lia. destruct a as [sh [|x [|y [|w it]]]]; try discriminate L. cbn in S. subst sh.
  destruct B as [-> | ->]; eexists; (split; [reflexivity|]); split; reflexivity.
Qed.
Example ex_c36_rows FO : write_image FO GRowP (ex_hdr FO GRowP U2 2 2 1) first_only = Ok [9; 9; 9; 9]%N
  /\ write_image FO GAll (ex_hdr FO GAll U2 2 2 1) (fun a _ _ _ => Ok a) = Ok [0; 0; 0; 0; 0; 0; 0; 0]%N.
Proof. vm_compute. auto. Qed.

Print Assumptions C36_partly.
Print Assumptions C36_untouched.
Print Assumptions C36_unsupplied_refuted.
