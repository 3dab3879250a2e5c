(** C48: listing and printing the content of a structure. *)
From Verif Require Import Base BaseLemmas Engine Wf EngineLemmas Codec RoundTrip Rewrite Literal
  Positions Keys Deps Assign Delayed Decimal Spec P_Diff Listing.
From Coq Require Import ZifyBool ZifyNat ZifyN Sorted.
Open Scope list_scope.

(** ** The notation for bytes *)

Lemma hex_val_digit n : (n < 16)%N -> hex_val (hex_digit n) = Some n.
Proof.
  intro H. unfold hex_digit, hex_val. destruct (n <? 10)%N eqn:E.
  - replace ((48 <=? 48 + n)%N && (48 + n <=? 57)%N) with true by lia. f_equal. lia.
  - replace ((48 <=? 87 + n)%N && (87 + n <=? 57)%N) with false by lia.
    replace ((97 <=? 87 + n)%N && (87 + n <=? 102)%N) with true by lia. f_equal. lia.
Qed.

Lemma lit_body_byte q c l : (q = 39 \/ q = 34)%N -> (c < 256)%N ->
  lit_body q (byte_repr q c ++ l) = match lit_body q l with Some t => Some (c :: t) | None => None end.
Proof.
  intros Q Hc. unfold byte_repr.
  destruct ((c =? q)%N || (c =? 92)%N) eqn:E1.
  { cbn [app lit_body]. replace (92 =? q)%N with false by lia. cbn [N.eqb Pos.eqb].
    replace (c =? 116)%N with false by lia. replace (c =? 110)%N with false by lia. replace (c =? 114)%N with false by lia.
    replace ((c =? 39)%N || (c =? 34)%N || (c =? 92)%N) with true by lia. reflexivity. }
  destruct (c =? 9)%N eqn:E2; [apply N.eqb_eq in E2; subst c|].
  { cbn [app lit_body]. replace (92 =? q)%N with false by lia. reflexivity. }
  destruct (c =? 10)%N eqn:E3; [apply N.eqb_eq in E3; subst c|].
  { cbn [app lit_body]. replace (92 =? q)%N with false by lia. reflexivity. }
  destruct (c =? 13)%N eqn:E4; [apply N.eqb_eq in E4; subst c|].
  { cbn [app lit_body]. replace (92 =? q)%N with false by lia. reflexivity. }
  destruct ((c <? 32)%N || (127 <=? c)%N) eqn:E5.
  { cbn [app lit_body]. replace (92 =? q)%N with false by lia. cbn [N.eqb Pos.eqb orb].
    assert (c / 16 < 16)%N by (apply N.div_lt_upper_bound; lia).
    assert (c mod 16 < 16)%N by (apply N.mod_lt; lia).
    rewrite !hex_val_digit by assumption. replace (16 * (c / 16) + c mod 16)%N with c; [reflexivity|].
    apply N.div_mod. lia. }
  cbn [app lit_body]. replace (c =? q)%N with false by lia. replace (c =? 92)%N with false by lia.
  replace ((c =? 10)%N || (c =? 13)%N || (c =? 0)%N || (128 <=? c)%N) with false by lia. reflexivity.
Qed.

(** [eval(str(b))] is [b], whatever the bytes: what a pickled structure carries is what was written. *)
Theorem C18_literal b : (forall c, In c b -> (c < 256)%N) -> eval_bytes (bytes_repr b) = Some b.
Proof.
  intro H. unfold bytes_repr, eval_bytes. set (q := bytes_quote b).
  assert (Q : (q = 39 \/ q = 34)%N) by (unfold q, bytes_quote; destruct (_ && _); auto).
  clearbody q. replace ((q =? 39)%N || (q =? 34)%N) with true by lia. induction b as [|c b IH].
  - cbn [flat_map app lit_body]. now rewrite N.eqb_refl.
  - cbn [flat_map]. rewrite <- app_assoc, (lit_body_byte q c _ Q) by (apply H; now left).
    rewrite IH by (intros x Hx; apply H; now right). reflexivity.
Qed.

Example ex_c18_literal :
  bytes_repr [0; 39; 92; 10; 255; 65]%N = str "b""\x00'\\\n\xffA""" /\ eval_bytes (str "b""\x00'\\\n\xffA""") = Some [0; 39; 92; 10; 255; 65]%N.
Proof. split; vm_compute; reflexivity. Qed.

(** ** Lists *)

(** [x[i][j]...] for a nested list; negative indices are not used. *)
Fixpoint nest_at {FO} (n : nest FO) (k : list Z) : option (nest FO) :=
  match k with
  | [] => Some n
  | i :: k' => match n with
               | Leaf _ => None
               | Node l => if (i <? 0)%Z then None
                           else match nth_error l (Z.to_nat i) with Some m => nest_at m k' | None => None end
               end
  end.
(** The values of a nested list from left to right. *)
Fixpoint flatten {FO} (n : nest FO) : list (pyval FO) :=
  match n with
  | Leaf v => [v]
  | Node l => flat_map flatten l
  end.

Lemma map_res_ok {A B} (f : A -> res B) l r : map_res f l = Ok r <-> Forall2 (fun a b => f a = Ok b) l r.
Proof.
  revert r. induction l as [|a l IH]; intro r; cbn [map_res]; split; intro H.
  - injection H as <-. constructor.
  - inversion H. reflexivity.
  - apply bind_ok_elim in H as (x & Hx & H). apply bind_ok_elim in H as (y & Hy & H). injection H as <-.
    constructor; auto. now apply IH.
  - inversion H as [|? b ? r' Hb Hr]; subst. rewrite Hb. cbn [bind]. rewrite (proj2 (IH r') Hr). reflexivity.
Qed.
Lemma map_res_total {A B} (f : A -> res B) l : (forall a, In a l -> exists b, f a = Ok b) -> exists r, map_res f l = Ok r.
Proof.
  induction l as [|a l IH]; intro H; cbn [map_res]; [eauto|]. destruct (H a) as (b & Hb); [now left|]. rewrite Hb. cbn [bind].
  destruct IH as (r & Hr); [intros; apply H; now right|]. rewrite Hr. cbn [bind]. eauto.
Qed.
Lemma Forall2_nth {A B} (R : A -> B -> Prop) l r : Forall2 R l r -> forall i,
  match nth_error l i, nth_error r i with Some a, Some b => R a b | None, None => True | _, _ => False end.
Proof. induction 1 as [|a b l r H _ IH]; intros [|i]; cbn [nth_error]; auto. exact (IH i). Qed.
Lemma Forall2_len {A B} (R : A -> B -> Prop) l r : Forall2 R l r -> List.length l = List.length r.
Proof. induction 1; cbn [List.length]; congruence. Qed.
Lemma zrange_nth n i : nth_error (zrange n) i = if (Z.of_nat i <? n)%Z then Some (Z.of_nat i) else None.
Proof.
  unfold zrange. rewrite nth_error_map. destruct (Z.of_nat i <? n)%Z eqn:E.
  - rewrite (nth_error_nth' (seq 0 (Z.to_nat n)) 0%nat) by (rewrite seq_length; lia). rewrite seq_nth by lia. reflexivity.
  - replace (nth_error (seq 0 (Z.to_nat n)) i) with (@None nat); [reflexivity|]. symmetry. apply nth_error_None. rewrite seq_length. lia.
Qed.
Lemma concat_map_map {A B C} (f : A -> res (list B)) (g : B -> res C) l : forall r,
  (do x <- concat_map_res f l; map_res g x) = Ok r <->
  exists rs, Forall2 (fun a y => (do x <- f a; map_res g x) = Ok y) l rs /\ r = List.concat rs.
Proof.
  assert (MA : forall (x y : list B) r, map_res g (x ++ y) = Ok r <-> exists a b, map_res g x = Ok a /\ map_res g y = Ok b /\ r = a ++ b).
  { intros x y r. rewrite map_res_ok. split.
    - intro H. apply Forall2_app_inv_l in H as (a & b & H1 & H2 & ->). exists a, b. rewrite !map_res_ok. auto.
    - intros (a & b & H1 & H2 & ->). rewrite map_res_ok in H1, H2. now apply Forall2_app. }
  induction l as [|a l IH]; intro r; cbn [concat_map_res bind].
  - cbn [map_res]. split; [intros [= <-]; exists []; split; [constructor|reflexivity]|]. intros (rs & H & ->). inversion H. reflexivity.
  - split.
    + intro H. apply bind_ok_elim in H as (z & Hz & H). apply bind_ok_elim in Hz as (x & Hx & Hz). apply bind_ok_elim in Hz as (y & Hy & Hz).
      injection Hz as <-. apply MA in H as (p & q & Hp & Hq & ->).
      destruct (proj1 (IH q)) as (rs & HF & ->); [rewrite Hy; exact Hq|]. exists (p :: rs). split; [|reflexivity]. constructor; [|exact HF].
      rewrite Hx. exact Hp.
    + intros (rs & HF & ->). inversion HF as [|? p ? rs' H1 H2]; subst. apply bind_ok_elim in H1 as (x & Hx & H1).
      assert (H3 := proj2 (IH (List.concat rs')) (ex_intro _ rs' (conj H2 eq_refl))). apply bind_ok_elim in H3 as (y & Hy & H3).
      rewrite Hx, Hy. cbn [bind]. apply MA. exists p, (List.concat rs'). auto.
Qed.

Section P.
Variable FO : FloatOps.
Notation state := (state FO).

Section S.
Variables (fs : fstruct) (s : state) (f : field).

Lemma to_list_values shs : forall lead n, to_list_from FO fs s f lead shs = Ok n ->
  (do ks <- keys_from FO fs s lead shs; map_res (fget FO fs s f) ks) = Ok (flatten n).
Proof.
  induction shs as [|sh shs IH]; intros lead n H; cbn [to_list_from] in H; cbn [keys_from].
  - apply bind_ok_elim in H as (v & Hv & H). injection H as <-. cbn [bind map_res]. rewrite Hv. reflexivity.
  - apply bind_ok_elim in H as (c & Hc & H). apply bind_ok_elim in H as (l & Hl & H). injection H as <-. rewrite Hc. cbn [bind flatten].
    apply concat_map_map. exists (map flatten l). rewrite flat_map_concat_map. split; [|reflexivity].
    apply map_res_ok in Hl. induction Hl as [|i m is ms Hi _ IHl]; cbn [map]; constructor; auto.
Qed.
Lemma values_to_list shs : forall lead vs,
  (do ks <- keys_from FO fs s lead shs; map_res (fget FO fs s f) ks) = Ok vs ->
  exists n, to_list_from FO fs s f lead shs = Ok n.
Proof.
  induction shs as [|sh shs IH]; intros lead vs H; cbn [keys_from] in H; cbn [to_list_from].
  - cbn [bind map_res] in H. apply bind_ok_elim in H as (v & Hv & H). rewrite Hv. cbn [bind]. eauto.
  - destruct (eval_shape FO (G FO fs s) fs lead sh) as [c|] eqn:Hc; [|discriminate H]. cbn [bind] in H |- *.
    apply concat_map_map in H as (rs & HF & _).
    destruct (map_res_total (fun i => to_list_from FO fs s f (lead ++ [i]) shs) (zrange c)) as (l & Hl).
    { intros i Hi. revert Hi. induction HF as [|j r is rs' Hr _ IHF]; intros [].
      - subst j. eapply IH. exact Hr.
      - auto. }
    rewrite Hl. cbn [bind]. eauto.
Qed.

Lemma to_list_at shs : forall lead n, to_list_from FO fs s f lead shs = Ok n -> forall q,
  match nest_at n q with
  | Some (Leaf v) => List.length q = List.length shs /\ fget FO fs s f (lead ++ q) = Ok v
      /\ (forall j, (j < List.length shs)%nat -> exists m,
            eval_shape FO (G FO fs s) fs (lead ++ firstn j q) (nth j shs (EInt 0)) = Ok m /\ (0 <= nth j q 0 < m)%Z)
  | Some (Node l) => exists sh m, nth_error shs (List.length q) = Some sh
      /\ eval_shape FO (G FO fs s) fs (lead ++ q) sh = Ok m /\ List.length l = Z.to_nat m
  | None => ~ (List.length q = List.length shs
      /\ (forall j, (j < List.length shs)%nat -> exists m,
            eval_shape FO (G FO fs s) fs (lead ++ firstn j q) (nth j shs (EInt 0)) = Ok m /\ (0 <= nth j q 0 < m)%Z))
  end.
Proof.
  induction shs as [|sh shs IH]; intros lead n H q; cbn [to_list_from] in H.
  - apply bind_ok_elim in H as (v & Hv & H). injection H as <-. destruct q as [|i q]; cbn [nest_at].
    + rewrite app_nil_r. split; [reflexivity|]. split; [exact Hv|]. intros j Hj. cbn in Hj. lia.
    + intros [L _]. discriminate L.
  - apply bind_ok_elim in H as (c & Hc & H). apply bind_ok_elim in H as (l & Hl & H). injection H as <-. apply map_res_ok in Hl.
    destruct q as [|i q]; cbn [nest_at].
    + exists sh, c. rewrite app_nil_r. split; [reflexivity|]. split; [exact Hc|]. rewrite <- (Forall2_len _ _ _ Hl).
      unfold zrange. now rewrite map_length, seq_length.
    + assert (NB : (i < 0 \/ c <= i)%Z -> ~ (List.length (i :: q) = List.length (sh :: shs)
        /\ (forall j, (j < List.length (sh :: shs))%nat -> exists m,
            eval_shape FO (G FO fs s) fs (lead ++ firstn j (i :: q)) (nth j (sh :: shs) (EInt 0)) = Ok m /\ (0 <= nth j (i :: q) 0 < m)%Z))).
      { intros B [_ Y]. destruct (Y O) as (m & Hm & Hb); [cbn; lia|]. cbn [firstn nth] in Hm, Hb. rewrite app_nil_r, Hc in Hm.
        injection Hm as <-. lia. }
      destruct (i <? 0)%Z eqn:Ei; [apply NB; lia|]. assert (X := Forall2_nth _ _ _ Hl (Z.to_nat i)). rewrite zrange_nth in X.
      replace (Z.of_nat (Z.to_nat i)) with i in X by lia. destruct (i <? c)%Z eqn:Ec.
      2:{ destruct (nth_error l (Z.to_nat i)); [destruct X|]. apply NB. lia. }
      destruct (nth_error l (Z.to_nat i)) as [m|]; [|destruct X]. specialize (IH _ _ X q).
      destruct (nest_at m q) as [[v|l']|].
      * rewrite <- app_assoc in IH. destruct IH as (A & B & D). split; [cbn; lia|]. split; [exact B|]. intros [|j] Hj.
        -- cbn [firstn nth]. rewrite app_nil_r. exists c. split; [exact Hc|]. lia.
        -- cbn [firstn nth]. destruct (D j) as (m' & E1 & E2); [cbn in Hj; lia|]. rewrite <- app_assoc in E1. eauto.
      * destruct IH as (sh' & m' & A & B & D). rewrite <- app_assoc in B. exists sh', m'. auto.
      * intros [L Y]. apply IH. split; [cbn in L; lia|]. intros j Hj. destruct (Y (S j)) as (m' & E1 & E2); [cbn; lia|].
        cbn [firstn nth] in E1, E2. exists m'. rewrite <- app_assoc. auto.
Qed.
End S.

(** [to_list] gives nested lists in which [x[i][j]] is the value of the field at [i,j]; the indices
    of the list are exactly those of the field; each list is as long as the loop count. *)
Theorem C48_to_list fs (s : state) f n : to_list FO fs s f = Ok n ->
  (forall k v, nest_at n k = Some (Leaf v) <-> valid_index FO fs s f k /\ fget FO fs s f k = Ok v)
  /\ (forall k l, nest_at n k = Some (Node l) ->
        exists sh m, nth_error (f_loops f) (List.length k) = Some sh /\ count_is FO fs s k sh m /\ List.length l = Z.to_nat m).
Proof.
  intro H. assert (X := to_list_at fs s f (f_loops f) [] n H). split.
  - intros k v. specialize (X k). rewrite valid_index_shape. unfold in_shape. split.
    + intro E. rewrite E in X. destruct X as (A & B & D). auto.
    + intros ((A & B) & D). destruct (nest_at n k) as [[w|l]|].
      * destruct X as (_ & E & _). cbn [app] in E. congruence.
      * destruct X as (sh & m & E & _). assert (List.length k < List.length (f_loops f))%nat; [|lia]. apply nth_error_Some. congruence.
      * destruct X. auto.
  - intros k l E. specialize (X k). rewrite E in X. destruct X as (sh & m & A & B & D). exists sh, m. split; [exact A|]. split; [|exact D].
    apply count_is_shape. exact B.
Qed.

(** [values()] are the values of [to_list()] from left to right; either fails only with the other. *)
Theorem C48_values fs (s : state) f vs : values FO fs s f = Ok vs <-> exists n, to_list FO fs s f = Ok n /\ flatten n = vs.
Proof.
  unfold values, field_keys, to_list. split.
  - intro H. destruct (values_to_list fs s f _ _ _ H) as (n & Hn). exists n. split; [exact Hn|].
    apply to_list_values in Hn. rewrite Hn in H. now injection H.
  - intros (n & Hn & <-). now apply to_list_values.
Qed.

(** [items()] pairs each index of the field with its value, each index once and in C order. *)
Theorem C48_items fs (s : state) f l : items FO fs s f = Ok l ->
  (forall k v, In (k, v) l <-> valid_index FO fs s f k /\ fget FO fs s f k = Ok v)
  /\ StronglySorted lex_lt (map fst l) /\ values FO fs s f = Ok (map snd l).
Proof.
  unfold items, values. intro H. apply bind_ok_elim in H as (ks & Hk & H). rewrite Hk. cbn [bind].
  apply map_res_ok in H. assert (F : map fst l = ks /\ Forall2 (fun k v => fget FO fs s f k = Ok v) ks (map snd l)
     /\ forall k v, In (k, v) l <-> In k ks /\ fget FO fs s f k = Ok v).
  { clear Hk. induction H as [|k p ks l Hp _ IH].
    - split; [reflexivity|]. split; [constructor|]. intros k v. split; [intros []|intros [[] _]].
    - apply bind_ok_elim in Hp as (v & Hv & E). injection E as <-. destruct IH as (A & B & C). cbn [map fst snd]. split; [now rewrite A|].
      split; [constructor; auto|]. intros k' v'. cbn [In]. rewrite C. split.
      + intros [E|[I E]]; [injection E as <- <-; auto|auto].
      + intros [[<-|I] E]; [left; congruence|auto]. }
  destruct F as (A & B & C). split; [intros k v; rewrite C, (valid_key FO fs s f ks k Hk); reflexivity|]. rewrite A. split.
  - now apply (field_keys_sorted FO fs s f).
  - now apply map_res_ok.
Qed.

(** ** All fields of a structure *)

Lemma dict_names_in fl : forall seen nm, In nm (dict_names seen fl) <->
  ~ In nm seen /\ exists f, In f fl /\ fd_name (f_d f) = Some nm.
Proof.
  assert (EX : forall nm seen, existsb (String.eqb nm) seen = true <-> In nm seen).
  { intros nm seen. rewrite existsb_exists. split; [intros (x & I & E); apply String.eqb_eq in E; now subst|].
    intro I. exists nm. split; [exact I|apply String.eqb_refl]. }
  induction fl as [|f fl IH]; intros seen nm; cbn [dict_names].
  - split; [intros []|intros (_ & f & [] & _)].
  - destruct (fd_name (f_d f)) as [nm'|] eqn:E.
    + destruct (existsb (String.eqb nm') seen) eqn:S.
      * rewrite IH. apply EX in S. split; intros (A & g & B & C); split; auto; exists g.
        -- split; [now right|exact C].
        -- destruct B as [<-|B]; [|auto]. exfalso. apply A. congruence.
      * assert (N : ~ In nm' seen) by (rewrite <- EX; congruence). cbn [In]. rewrite IH. split.
        -- intros [<-|(A & g & B & C)]; [split; [exact N|exists f; auto]|]. split; [intro I; apply A; now right|]. exists g. auto.
        -- intros (A & g & B & C). destruct (string_dec nm' nm) as [D|D]; [now left|right]. split.
           ++ intros [X|X]; [now apply D|now apply A].
           ++ exists g. split; [|exact C]. destruct B as [<-|B]; [congruence|exact B].
    + rewrite IH. split; intros (A & g & B & C); split; auto; exists g.
      * split; [now right|exact C].
      * destruct B as [<-|B]; [congruence|auto].
Qed.
Lemma dict_names_nodup fl : forall seen, NoDup (dict_names seen fl).
Proof.
  induction fl as [|f fl IH]; intro seen; cbn [dict_names]; [constructor|]. destruct (fd_name (f_d f)) as [nm|]; [|apply IH].
  destruct (existsb (String.eqb nm) seen); [apply IH|]. constructor; [|apply IH]. rewrite dict_names_in. intros [A _]. apply A. now left.
Qed.
(** The names that stand in the table, in its order. *)
Definition table_names (rows : list row) : list string :=
  flat_map (fun f => match fd_name (f_d f) with Some nm => [nm] | None => [] end) (fs_fields (mk_fs rows)).
Lemma dict_names_all fl : forall seen,
  NoDup (flat_map (fun f => match fd_name (f_d f) with Some nm => [nm] | None => [] end) fl) ->
  (forall nm, In nm seen -> ~ In nm (flat_map (fun f => match fd_name (f_d f) with Some nm => [nm] | None => [] end) fl)) ->
  dict_names seen fl = flat_map (fun f => match fd_name (f_d f) with Some nm => [nm] | None => [] end) fl.
Proof.
  induction fl as [|f fl IH]; intros seen N D; cbn [dict_names flat_map] in *; [reflexivity|].
  destruct (fd_name (f_d f)) as [nm|]; cbn [app] in *; [|auto]. inversion_clear N as [|? ? N1 N2].
  destruct (existsb (String.eqb nm) seen) eqn:S.
  - exfalso. apply existsb_exists in S as (x & I & E). apply String.eqb_eq in E. subst x. apply (D nm I). now left.
  - f_equal. apply IH; [exact N2|]. intros x [<-|I]; [exact N1|]. intro J. apply (D x I). now right.
Qed.

(** [items()] of a structure has one entry for each field name, under which stands everything that can
    be read under that name; if no name occurs twice they come in the order of the table. *)
Theorem C48_struct_items rows (s : state) l : struct_items FO (mk_fs rows) s = Ok l ->
  NoDup (map fst l)
  /\ (forall nm, In nm (map fst l) <-> In nm (table_names rows))
  /\ (NoDup (table_names rows) -> map fst l = table_names rows)
  /\ forall nm x, In (nm, x) l -> exists f, lookup (mk_fs rows) nm = Some f
       /\ forall k v, nest_at x k = Some (Leaf v) <-> valid_index FO (mk_fs rows) s f k /\ get FO (mk_fs rows) s nm k = Ok v.
Proof.
  unfold struct_items. intro H. apply map_res_ok in H.
  assert (F : map fst l = field_names (mk_fs rows)
    /\ forall nm x, In (nm, x) l -> exists f, lookup (mk_fs rows) nm = Some f /\ to_list FO (mk_fs rows) s f = Ok x).
  { induction H as [|nm p names l Hp _ IH]; [split; [reflexivity|intros ? ? []]|].
    destruct (lookup (mk_fs rows) nm) as [f|] eqn:L; [|discriminate Hp]. apply bind_ok_elim in Hp as (x & Hx & E). injection E as <-.
    destruct IH as [A B]. split; [cbn [map fst]; now rewrite A|]. intros nm' x' [E|I]; [injection E as <- <-; eauto|auto]. }
  destruct F as [A B]. rewrite A. unfold field_names. split; [apply dict_names_nodup|]. split; [|split].
  - intro nm. rewrite dict_names_in. unfold table_names. rewrite in_flat_map. split.
    + intros (_ & f & I & E). exists f. split; [exact I|]. rewrite E. now left.
    + intros (f & I & E). split; [intros []|]. exists f. split; [exact I|]. destruct (fd_name (f_d f)) as [nm'|]; [destruct E as [<-|[]]; reflexivity|destruct E].
  - intro N. apply dict_names_all; [exact N|intros ? []].
  - intros nm x I. destruct (B nm x I) as (f & L & E). exists f. split; [exact L|]. intros k v.
    rewrite (proj1 (C48_to_list _ _ _ _ E) k v). unfold get. rewrite L. split; intros (V & R); split; auto.
    + replace (key_shape_ok f k) with true; [exact R|]. destruct V as [V _]. unfold key_shape_ok, depth. destruct (f_loops f); [|reflexivity].
      destruct k; [reflexivity|discriminate V].
    + destruct (key_shape_ok f k); [exact R|discriminate R].
Qed.

(** ** Text *)

(** How an index is shown: nothing for a scalar, else [\[i, j\]]. *)
Definition shown_index (k : list Z) : list N :=
  match k with
  | [] => []
  | i :: k' => str "[" ++ str_of_Z i ++ flat_map (fun j => str ", " ++ str_of_Z j) k' ++ str "]"
  end.
Lemma key_to_str_shown k : key_to_str k = shown_index k.
Proof.
  destruct k as [|i k]; [reflexivity|]. unfold key_to_str, shown_index. f_equal. rewrite app_assoc. f_equal.
  revert i. induction k as [|j k IH]; intro i; [cbn [map join flat_map]; now rewrite app_nil_r|].
  change (map str_of_Z (i :: j :: k)) with (str_of_Z i :: map str_of_Z (j :: k)). cbn [flat_map].
  change (join (str ", ") (str_of_Z i :: map str_of_Z (j :: k))) with (str_of_Z i ++ str ", " ++ join (str ", ") (map str_of_Z (j :: k))).
  rewrite (IH j). now rewrite <- app_assoc.
Qed.

Variable ext : field -> list N -> res (list N).
Variable source : expr -> list N.

(** What is shown of a value: nothing there, or an empty text or an empty piece of data, is
    "Not used"; binary data by its length; plain bytes in python's notation. *)
Definition shows (f : field) (v : pyval FO) (p : list N) : Prop :=
  match v with
  | VNone => p = str "Not used"
  | VBool b => p = if b then str "True" else str "False"
  | VInt z => p = str_of_Z z
  | VFloat x => match fd_ty (f_d f) with TData _ => fl_fmt FO (FsPct false false false 0 6 false false) x = Some p | _ => p = fl_str FO x end
  | VStr t => match fd_ty (f_d f), t with TData _, [] => p = str "Not used" | _, _ => p = t end
  | VBytes b => match fd_ty (f_d f) with
                | TData KBytes => (b = [] /\ p = str "Not used")
                                  \/ (b <> [] /\ p = str "Data length " ++ str_of_Z (Z.of_nat (List.length b)))
                | TData _ => ext f b = Ok p
                | _ => all_bytes b = true -> eval_bytes p = Some b
                end
  end.

Lemma get_print_shows fs s f k p : get_print FO ext fs s f k = Ok p -> exists v, fget FO fs s f k = Ok v /\ shows f v p.
Proof.
  unfold get_print. intro H. apply bind_ok_elim in H as (v & Hv & H). exists v. split; [exact Hv|].
  assert (B : forall b, all_bytes b = true -> eval_bytes (bytes_repr b) = Some b).
  { intros b Hb. apply C18_literal. unfold all_bytes in Hb. rewrite forallb_forall in Hb. intros c Hc. specialize (Hb c Hc). lia. }
  unfold shows. destruct v as [|b|z|t|b|x]; [now injection H| | | | | ].
  all: destruct (fd_ty (f_d f)) as [ | | | |[ | | |sg| ]]; cbn [str_any conv_str] in H.
  all: try discriminate H.
  all: try (injection H as <-; auto; fail).
  all: try (destruct t; injection H as <-; reflexivity).
  - destruct b as [|c b]; injection H as <-; [left; auto|right]. split; [discriminate|reflexivity].
  - exact H.
  - unfold pct_f in H. destruct (fl_fmt FO (FsPct false false false 0 6 false false) x); [|discriminate H]. injection H as <-. reflexivity.
Qed.

(** A line for the value of [f] at [k]: the name and index, spaces, a colon and the value. *)
Definition line_for (fs : fstruct) (s : state) (f : field) (k : list Z) (l : list N) : Prop :=
  exists nm v p pad, fd_name (f_d f) = Some nm /\ fget FO fs s f k = Ok v /\ shows f v p
    /\ l = spaces (2 * List.length k) ++ str nm ++ shown_index k ++ spaces pad ++ str ": " ++ p.

(** The loops of a table in order, each with the number of loops around it. *)
Fixpoint loops_of (d : nat) (it : item) : list (nat * expr) :=
  match it with
  | IField _ => []
  | ILoop sh its => (d, sh) :: flat_map (loops_of (S d)) its
  end.
Definition head_for (h : nat * expr) (l : list N) : Prop := l = spaces (2 * fst h) ++ str "Loop - " ++ source (snd h).

(** The lines of a printed structure, each with the field and index it shows, or none for the
    heading of a loop. *)
Definition tagged := list (option (field * list Z) * list N).
Definition entries (ts : tagged) : list (field * list Z) := flat_map (fun t => match fst t with Some e => [e] | None => [] end) ts.
Definition heads (ts : tagged) : list (list N) := flat_map (fun t => match fst t with Some _ => [] | None => [snd t] end) ts.

Definition keys_or fs s (f : field) : list (list Z) :=
  match fd_name (f_d f), field_keys FO fs s f with Some _, Ok ks => ks | _, _ => [] end.
Definition laid fs s (hs : list (nat * expr)) (fl : list field) (ts : tagged) : Prop :=
  entries ts = flat_map (fun f => map (pair f) (keys_or fs s f)) fl
  /\ Forall (fun f => fd_name (f_d f) <> None -> exists ks, field_keys FO fs s f = Ok ks) fl
  /\ (forall f k l, In (Some (f, k), l) ts -> line_for fs s f k l)
  /\ Forall2 head_for hs (heads ts).

Lemma laid_app fs s h1 h2 f1 f2 t1 t2 : laid fs s h1 f1 t1 -> laid fs s h2 f2 t2 -> laid fs s (h1 ++ h2) (f1 ++ f2) (t1 ++ t2).
Proof.
  intros (A & B & C & D) (A' & B' & C' & D'). unfold laid, entries, heads in *. rewrite !flat_map_app, A, A'. split; [reflexivity|].
  split; [apply Forall_app; auto|]. split; [|now apply Forall2_app]. intros f k l I. apply in_app_or in I as [I|I]; auto.
Qed.

Lemma fields_lines fs s w path f nm ks ls : f_loops f = path -> fd_name (f_d f) = Some nm -> keys_from FO fs s [] path = Ok ks ->
  map_res (fun k => do p <- get_print FO ext fs s f k; Ok (value_line w (List.length path) nm k p)) ks = Ok ls ->
  exists ts, map snd ts = ls /\ laid fs s [] [f] ts.
Proof.
  intros Hp Hn Hk H. apply map_res_ok in H. exists (map (fun kl => (Some (f, fst kl), snd kl)) (combine ks ls)).
  assert (KO : keys_or fs s f = ks) by (unfold keys_or, field_keys; rewrite Hn, Hp, Hk; reflexivity).
  assert (HL : forall k, In k ks -> List.length k = List.length path).
  { intros k I. apply (keys_from_in FO fs s path [] ks k Hk) in I as (q & -> & L & _). exact L. }
  assert (HF : field_keys FO fs s f = Ok ks) by (unfold field_keys; now rewrite Hp).
  clear Hk. unfold laid. cbn [flat_map]. rewrite KO, app_nil_r. clear KO.
  assert (F : map snd (map (fun kl : list Z * list N => (Some (f, fst kl), snd kl)) (combine ks ls)) = ls
    /\ entries (map (fun kl => (Some (f, fst kl), snd kl)) (combine ks ls)) = map (pair f) ks
    /\ (forall f0 k l, In (Some (f0, k), l) (map (fun kl => (Some (f, fst kl), snd kl)) (combine ks ls)) -> line_for fs s f0 k l)
    /\ heads (map (fun kl => (Some (f, fst kl), snd kl)) (combine ks ls)) = []).
  { clear HF. induction H as [|k l ks ls Hl _ IH]; [repeat split; auto; intros ? ? ? []|].
    destruct IH as (A & B & C & D); [intros; apply HL; now right|]. cbn [combine map fst snd]. split; [now rewrite A|].
    split; [unfold entries in *; cbn [flat_map fst app]; now rewrite B|]. split; [|unfold heads in *; cbn [flat_map fst app]; exact D].
    intros f0 k0 l0 [E|I]; [|exact (C f0 k0 l0 I)]. injection E as <- <- <-.
    apply bind_ok_elim in Hl as (p & Hp' & E). injection E as <-. destruct (get_print_shows fs s f k p Hp') as (v & Hv & Hs).
    exists nm, v, p. exists (w - List.length (str nm ++ key_to_str k))%nat. split; [exact Hn|]. split; [exact Hv|]. split; [exact Hs|].
    unfold value_line, ljust. rewrite (HL k) by now left. rewrite key_to_str_shown, <- !app_assoc. reflexivity. }
  destruct F as (A & B & C & D). split; [exact A|]. split; [exact B|]. split; [|split; [exact C|rewrite D; constructor]].
  constructor; [|constructor]. intros _. eauto.
Qed.

Lemma print_item_laid fs s it : forall w path ls, placed path it -> print_item FO ext source fs s w path it = Ok ls ->
  exists ts, map snd ts = ls /\ laid fs s (loops_of (List.length path) it) (item_fields it) ts.
Proof.
  induction it as [f|sh its IH] using item_ind'; intros w path ls Hp H; cbn [print_item] in H.
  - cbn [placed] in Hp. cbn [loops_of item_fields]. destruct (fd_name (f_d f)) as [nm|] eqn:En.
    + apply bind_ok_elim in H as (ks & Hk & H). eapply fields_lines; eauto.
    + injection H as <-. exists []. split; [reflexivity|]. unfold laid, keys_or. cbn [flat_map]. rewrite En. cbn [map app].
      split; [reflexivity|]. split; [constructor; [congruence|constructor]|]. split; [intros ? ? ? []|constructor].
  - apply placed_loop in Hp. apply bind_ok_elim in H as (ks & Hk & H). cbv zeta in H. apply bind_ok_elim in H as (l & Hl & H). injection H as <-.
    cbn [item_fields loops_of]. set (w' := width its ks) in Hl. clearbody w'. clear Hk ks.
    assert (G : exists ts, map snd ts = l /\ laid fs s (flat_map (loops_of (S (List.length path))) its) (flat_map item_fields its) ts).
    { revert l Hl. induction its as [|it its IHi]; intros l Hl.
      - injection Hl as <-. exists []. split; [reflexivity|]. cbn [flat_map]. split; [reflexivity|]. split; [constructor|].
        split; [intros ? ? ? []|constructor].
      - inversion_clear IH as [|? ? IH1 IH2]. inversion_clear Hp as [|? ? P1 P2].
        apply bind_ok_elim in Hl as (x & Hx & Hl). apply bind_ok_elim in Hl as (y & Hy & Hl). injection Hl as <-.
        destruct (IH1 _ _ _ P1 Hx) as (t1 & E1 & L1). destruct (IHi IH2 P2 y Hy) as (t2 & E2 & L2).
        exists (t1 ++ t2). split; [rewrite map_app; congruence|]. cbn [flat_map].
        replace (S (List.length path)) with (List.length (path ++ [sh])) at 1 by (rewrite app_length; cbn; lia). now apply laid_app. }
    destruct G as (ts & E & A & B & C & D). exists ((None, spaces (2 * List.length path) ++ str "Loop - " ++ source sh) :: ts).
    split; [cbn [map snd]; now rewrite E|]. unfold laid, entries, heads in *. cbn [flat_map fst snd app]. split; [exact A|]. split; [exact B|].
    split; [intros f k t [X|I]; [discriminate X|exact (C f k t I)]|]. constructor; [reflexivity|exact D].
Qed.

(** The order of the lines: by the place of the field in the table, then by index. *)
Definition before (a b : field * list Z) : Prop :=
  (f_id (fst a) < f_id (fst b))%nat \/ (fst a = fst b /\ lex_lt (snd a) (snd b)).

(** Printing a structure shows the value of every named field at every one of its indices on a line of
    its own, once and in the order of the table, and one heading for each loop. *)
Theorem C48_print rows (s : state) txt : print FO ext source (mk_fs rows) s = Ok txt ->
  exists ts : tagged,
    txt = flat_map (fun t => snd t ++ [10%N]) ts
    /\ (forall f k, In (f, k) (entries ts) <->
          In f (fs_fields (mk_fs rows)) /\ fd_name (f_d f) <> None /\ valid_index FO (mk_fs rows) s f k)
    /\ StronglySorted before (entries ts)
    /\ (forall f k l, In (Some (f, k), l) ts -> line_for (mk_fs rows) s f k l)
    /\ Forall2 head_for (flat_map (loops_of 0) (fs_items (mk_fs rows))) (heads ts).
Proof.
  set (fs := mk_fs rows). unfold print, print_lines. intro H. apply bind_ok_elim in H as (ls & Hl & H). injection H as <-.
  set (w := width (fs_items fs) [[]]) in Hl. clearbody w.
  assert (G : exists ts, map snd ts = ls /\ laid fs s (flat_map (loops_of 0) (fs_items fs)) (flat_map item_fields (fs_items fs)) ts).
  { assert (HP := mk_fs_placed rows). fold fs in HP. revert ls Hl. induction HP as [|it its P1 _ IH]; intros ls Hl.
    - injection Hl as <-. exists []. split; [reflexivity|]. split; [reflexivity|]. split; [constructor|]. split; [intros ? ? ? []|constructor].
    - apply concat_map_res_ok_cons in Hl as (x & y & Hx & Hy & ->). destruct (IH y Hy) as (t2 & E2 & L2).
      destruct (print_item_laid fs s it w [] x P1 Hx) as (t1 & E1 & L1). exists (t1 ++ t2). split; [rewrite map_app; congruence|].
      cbn [flat_map]. now apply laid_app. }
  destruct G as (ts & E & A & B & C & D). exists ts. split.
  { subst ls. unfold unlines. clear. induction ts as [|t ts IH]; [reflexivity|]. cbn [map flat_map]. now rewrite IH. }
  change (flat_map item_fields (fs_items fs)) with (fs_fields fs) in A, B. rewrite Forall_forall in B.
  assert (KI : forall f, In f (fs_fields fs) -> forall k, In k (keys_or fs s f) <-> fd_name (f_d f) <> None /\ valid_index FO fs s f k).
  { intros f I k. specialize (B f I). unfold keys_or. destruct (fd_name (f_d f)); [|split; [intros []|intros [X _]; congruence]].
    destruct B as (ks & HK); [discriminate|]. rewrite HK. rewrite (valid_key FO fs s f ks k HK). intuition discriminate. }
  split; [|split; [|split; [exact C|exact D]]].
  - intros f k. rewrite A, in_flat_map. split.
    + intros (f' & I & M). apply in_map_iff in M as (k' & X & M). injection X as -> ->. split; [exact I|]. now apply KI.
    + intros (I & V). exists f. split; [exact I|]. apply in_map. now apply KI.
  - rewrite A. assert (IDS := mk_fs_ids rows). fold fs in IDS. revert IDS. generalize (List.length (fs_fields fs)), O.
    assert (SR : forall f, In f (fs_fields fs) -> StronglySorted lex_lt (keys_or fs s f)).
    { intros f I. unfold keys_or. destruct (fd_name (f_d f)); [|constructor]. destruct (field_keys FO fs s f) eqn:HK; [|constructor].
      now apply (field_keys_sorted FO fs s f). }
    clear -SR. induction (fs_fields fs) as [|f fl IH]; intros m a E; [constructor|]. cbn [flat_map map] in *.
    destruct m as [|m]; [discriminate E|]. injection E as E1 E2. apply StronglySorted_app.
    + assert (S := SR f (or_introl eq_refl)). induction S as [|k ks S IHs Hk]; cbn [map]; constructor; auto.
      apply Forall_forall. intros (f', k') I. apply in_map_iff in I as (k0 & X & I). injection X as <- <-. right. split; [reflexivity|].
      rewrite Forall_forall in Hk. now apply Hk.
    + apply (IH (fun f I => SR f (or_intror I)) m (S a) E2).
    + intros (f1, k1) (f2, k2) I1 I2. apply in_map_iff in I1 as (? & X & _). injection X as <- _. left. cbn [fst].
      apply in_flat_map in I2 as (f' & I & M). apply in_map_iff in M as (? & X & _). injection X as -> _.
      assert (Y : In (f_id f2) (seq (S a) m)) by (rewrite <- E2; now apply in_map). apply in_seq in Y. lia.
Qed.

(** ** Alignment *)

Lemma max_of_le d l a : In a l -> (a <= max_of d l)%nat.
Proof.
  assert (G : forall l m, (m <= fold_left Nat.max l m)%nat /\ forall a, In a l -> (a <= fold_left Nat.max l m)%nat).
  { clear. induction l as [|b l IH]; intro m; cbn [fold_left]; [split; [lia|intros ? []]|].
    destruct (IH (Nat.max m b)) as (A & B). split; [lia|]. intros a [<-|I]; [lia|now apply B]. }
  destruct l as [|b l]; [intros []|]. cbn [max_of]. destruct (G l b) as (A & B). intros [<-|I]; [exact A|now apply B].
Qed.

Lemma width_fits its ks f nm k : In (IField f) its -> fd_name (f_d f) = Some nm -> In k ks ->
  (List.length (str nm ++ key_to_str k) <= width its ks)%nat.
Proof.
  intros I N K. unfold width. rewrite app_length. apply Nat.add_le_mono.
  - apply max_of_le, in_map_iff. exists nm. split; [reflexivity|]. unfold direct_names. apply in_flat_map. exists (IField f). split; [exact I|].
    rewrite N. now left.
  - apply max_of_le, in_map_iff. exists k. split; [reflexivity|exact K].
Qed.

(** The values of all fields directly in one loop start in the same column. *)
Theorem C48_aligned fs (s : state) w path sh its ks ls :
  print_item FO ext source fs s w path (ILoop sh its) = Ok ls -> keys_from FO fs s [] (path ++ [sh]) = Ok ks ->
  exists col, forall f nm k p, In (IField f) its -> fd_name (f_d f) = Some nm -> In k ks -> get_print FO ext fs s f k = Ok p ->
    exists n, let a := spaces (2 * List.length (path ++ [sh])) ++ str nm ++ key_to_str k ++ spaces n in
      In (a ++ str ": " ++ p) ls /\ List.length a = col.
Proof.
  cbn [print_item]. intros H HK. rewrite HK in H. cbn [bind] in H. apply bind_ok_elim in H as (l1 & H & H2). injection H2 as <-.
  set (w' := width its ks) in *. exists (2 * List.length (path ++ [sh]) + w')%nat. intros f nm k p I N K P.
  assert (F := width_fits its ks f nm k I N K). fold w' in F. clearbody w'.
  exists (w' - List.length (str nm ++ key_to_str k))%nat. split.
  - right. revert l1 H. induction its as [|it its IH]; intros l1 H; [destruct I|].
    apply bind_ok_elim in H as (x & Hx & H). apply bind_ok_elim in H as (y & Hy & H). injection H as <-. apply in_or_app.
    destruct I as [->|I]; [left|right; now apply IH].
    cbn [print_item] in Hx. rewrite N, HK in Hx. cbn [bind] in Hx. clear -Hx K P. revert x Hx K.
    induction ks as [|k0 ks IH]; intros x Hx K; [destruct K|]. cbn [map_res] in Hx.
    apply bind_ok_elim in Hx as (l & Hl & Hx). apply bind_ok_elim in Hx as (y & Hy & Hx). injection Hx as <-.
    destruct K as [->|K]; [left|right; now apply IH]. rewrite P in Hl. cbn [bind] in Hl. injection Hl as <-.
    unfold value_line, ljust. now rewrite <- !app_assoc.
  - unfold spaces. rewrite !app_length, !repeat_length in *. lia.
Qed.

(** ** When nothing fails *)

Definition listable fs (s : state) (f : field) : Prop :=
  exists ks, field_keys FO fs s f = Ok ks /\ forall k, In k ks -> exists v, fget FO fs s f k = Ok v.
Lemma listable_values fs s f : listable fs s f -> exists vs, values FO fs s f = Ok vs.
Proof. intros (ks & K & H). unfold values. rewrite K. cbn [bind]. now apply map_res_total. Qed.
Lemma listable_list fs s f : listable fs s f -> exists n, to_list FO fs s f = Ok n.
Proof. intro H. destruct (listable_values fs s f H) as (vs & V). apply C48_values in V as (n & Hn & _). eauto. Qed.
Lemma listable_items fs s f : listable fs s f -> exists l, items FO fs s f = Ok l.
Proof.
  intros (ks & K & H). unfold items. rewrite K. cbn [bind]. apply map_res_total. intros k I. destruct (H k I) as (v & Hv). rewrite Hv. cbn [bind]. eauto.
Qed.

Lemma field_names_lookup rows nm : In nm (field_names (mk_fs rows)) -> exists f, lookup (mk_fs rows) nm = Some f.
Proof.
  unfold field_names. rewrite dict_names_in. intros (_ & f & I & E). unfold lookup.
  destruct (find (has_name nm) (rev (fs_fields (mk_fs rows)))) as [g|] eqn:F; [eauto|]. exfalso.
  assert (X := find_none _ _ F f). rewrite <- in_rev in X. specialize (X I). unfold has_name in X. rewrite E, String.eqb_refl in X. discriminate X.
Qed.

(** Formatting of numbers and of the values of special classes does not fail. *)
Definition formats : Prop := (forall x, fl_fmt FO (FsPct false false false 0 6 false false) x <> None) /\ (forall f b, exists p, ext f b = Ok p).

Lemma typed fs s f k v nm kd : fd_name (f_d f) = Some nm -> fd_ty (f_d f) = TData kd -> fget FO fs s f k = Ok v ->
  match v with
  | VNone => True
  | VStr _ => kd = KString
  | VBytes _ => kd = KBytes \/ kd = KExt
  | VFloat _ => kd = KFloat
  | VInt _ => exists sg, kd = KInt sg
  | VBool _ => False
  end.
Proof.
  intros N T H. unfold fget, get_pub in H. apply bind_ok_elim in H as (w & Hw & H).
  assert (W : match w with VNone | VBytes _ => True | _ => False end).
  { unfold get_base in Hw. rewrite N in Hw. apply bind_ok_elim in Hw as (u & _ & Hw). apply bind_ok_elim in Hw as (c & _ & Hw).
    destruct (negb c); [injection Hw as <-; exact I|]. cbv zeta in Hw.
    assert (CV : forall x r, convert FO (f_d f) x = Ok r -> match r with VNone | VBytes _ => True | _ => False end).
    { intros x r E. unfold convert in E. rewrite T in E. destruct x as [x|b].
      - destruct x; try (apply bind_ok_elim in E as (b' & _ & E); injection E as <-; exact I).
        destruct (fd_optional (f_d f)); [injection E as <-; exact I|discriminate E].
      - destruct (fd_optional (f_d f) && is_blank (f_d f) b); injection E as <-; exact I. }
    destruct (fd_value (f_d f)) as [e|].
    - destruct (eval FO (G FO fs s) fs k e) as [x|]; [|discriminate Hw]. cbn [bind] in Hw.
      destruct (convert FO (f_d f) (SVal x)) as [y|] eqn:E; [|discriminate Hw]. injection Hw as <-. exact (CV _ _ E).
    - destruct (convert FO (f_d f) (stored FO s f k)) as [y|] eqn:E; [|discriminate Hw]. injection Hw as <-. exact (CV _ _ E). }
  rewrite T in H. destruct w as [| | | |b|]; try destruct W; [injection H as <-; exact I|]. unfold unpack in H. rewrite T in H.
  destruct kd as [ | | |sg| ].
  - injection H as <-. reflexivity.
  - injection H as <-. auto.
  - destruct (Nat.eqb (List.length b) 4); [|discriminate H]. injection H as <-. reflexivity.
  - apply bind_ok_elim in H as (sz & _ & H). unfold unpack_int in H.
    destruct (sz =? 3)%Z; [injection H as <-; eauto|]. destruct (_ || _); [|discriminate H].
    destruct (_ =? _)%Z; [injection H as <-; eauto|discriminate H].
  - injection H as <-. auto.
Qed.

Lemma get_print_total fs s f k v nm : formats -> fd_name (f_d f) = Some nm -> fget FO fs s f k = Ok v -> exists p, get_print FO ext fs s f k = Ok p.
Proof.
  intros (F1 & F2) N H. unfold get_print. rewrite H. cbn [bind].
  destruct (fd_ty (f_d f)) as [ | | | |kd] eqn:T; [destruct v; eauto..|]. assert (X := typed fs s f k v nm kd N T H).
  destruct v as [|b|z|t|b|x]; [eauto|destruct X| | | | ].
  - destruct X as (sg & ->). eauto.
  - subst kd. destruct t; eauto.
  - destruct X; subst kd; [destruct b; eauto|apply F2].
  - subst kd. unfold pct_f. destruct (fl_fmt FO (FsPct false false false 0 6 false false) x) eqn:E; [eauto|]. destruct (F1 _ E).
Qed.

(** No loop of the table is empty. *)
Fixpoint no_empty_loop (it : item) : bool :=
  match it with
  | IField _ => true
  | ILoop _ its => match flat_map item_fields its with [] => false | _ => true end && forallb no_empty_loop its
  end.

Lemma keys_from_prefix fs s path r : forall lead ks, keys_from FO fs s lead (path ++ r) = Ok ks -> exists ks', keys_from FO fs s lead path = Ok ks'.
Proof.
  induction path as [|e path IH]; intros lead ks H; cbn [keys_from app] in *; [eauto|].
  apply bind_ok_elim in H as (n & Hn & H). rewrite Hn. cbn [bind].
  apply (concat_res_ok (fun i => keys_from FO fs s (lead ++ [i]) path)). intros i Hi.
  destruct (proj1 (concat_res_ok _ _) (ex_intro _ ks H) i Hi) as (y & Ey). eauto.
Qed.

Lemma print_item_total fs s it : formats ->
  (forall f, In f (item_fields it) -> exists ks, field_keys FO fs s f = Ok ks) ->
  (forall f nm, In f (item_fields it) -> fd_name (f_d f) = Some nm -> listable fs s f) ->
  no_empty_loop it = true -> forall w path, placed path it -> exists ls, print_item FO ext source fs s w path it = Ok ls.
Proof.
  intro HF. induction it as [f|sh its IH] using item_ind'; intros HK HL HE w path HP; cbn [print_item].
  - destruct (fd_name (f_d f)) as [nm|] eqn:N; [|eauto]. destruct (HL f nm (or_introl eq_refl) N) as (ks & K & R).
    unfold field_keys in K. cbn [placed] in HP. rewrite HP in K. rewrite K. cbn [bind]. apply map_res_total. intros k I.
    destruct (R k I) as (v & Hv). destruct (get_print_total fs s f k v nm HF N Hv) as (p & Hp). rewrite Hp. cbn [bind]. eauto.
  - apply placed_loop in HP. cbn [no_empty_loop] in HE. apply andb_true_iff in HE as [HE1 HE2]. cbn [item_fields] in HK, HL.
    assert (K : exists ks, keys_from FO fs s [] (path ++ [sh]) = Ok ks).
    { destruct (flat_map item_fields its) as [|f fl] eqn:E; [discriminate HE1|]. destruct (HK f (or_introl eq_refl)) as (ks & K).
      assert (Hf : In f (flat_map item_fields its)) by (rewrite E; now left). apply in_flat_map in Hf as (it & I & Hf).
      rewrite Forall_forall in HP. destruct (placed_loops _ _ _ (HP it I) Hf) as (r & PL). unfold field_keys in K. rewrite PL in K.
      eapply keys_from_prefix. exact K. }
    destruct K as (ks & K). rewrite K. cbn [bind]. cbv zeta. generalize (width its ks). intro w'. clear K HE1 ks.
    match goal with |- exists ls, bind ?X _ = _ => assert (Y : exists l, X = Ok l); [|destruct Y as (l & ->); cbn [bind]; eauto] end.
    induction its as [|it its IHi]; [eauto|]. inversion_clear IH as [|? ? IH1 IH2]. inversion_clear HP as [|? ? P1 P2].
    cbn [flat_map forallb] in *. apply andb_true_iff in HE2 as [E1 E2].
    destruct (IH1 (fun f I => HK f (in_or_app _ _ _ (or_introl I))) (fun f nm I => HL f nm (in_or_app _ _ _ (or_introl I))) E1 w' (path ++ [sh]) P1) as (x & Hx).
    rewrite Hx. cbn [bind].
    destruct (IHi IH2 (fun f I => HK f (in_or_app _ _ _ (or_intror I))) (fun f nm I => HL f nm (in_or_app _ _ _ (or_intror I))) E2 P2) as (y & Hy).
    rewrite Hy. cbn [bind]. eauto.
Qed.

Lemma print_total rows (s : state) : formats -> forallb no_empty_loop (fs_items (mk_fs rows)) = true ->
  (forall f, In f (fs_fields (mk_fs rows)) -> exists ks, field_keys FO (mk_fs rows) s f = Ok ks) ->
  (forall f nm, In f (fs_fields (mk_fs rows)) -> fd_name (f_d f) = Some nm -> listable (mk_fs rows) s f) ->
  exists txt, print FO ext source (mk_fs rows) s = Ok txt.
Proof.
  intros HF HE HK HL. unfold print, print_lines. set (fs := mk_fs rows) in *. generalize (width (fs_items fs) [[]]). intro w.
  assert (P : exists ls, concat_map_res (print_item FO ext source fs s w []) (fs_items fs) = Ok ls).
  { apply (concat_res_ok (print_item FO ext source fs s w [])). intros it I. rewrite forallb_forall in HE.
    assert (IN : forall f, In f (item_fields it) -> In f (fs_fields fs)).
    { intros f Hf. change (fs_fields fs) with (flat_map item_fields (fs_items fs)). apply in_flat_map. eauto. }
    apply print_item_total; auto; [intros f nm Hf; exact (HL f nm (IN f Hf))|]. assert (X := mk_fs_placed rows). rewrite Forall_forall in X. now apply X. }
  destruct P as (ls & ->). cbn [bind]. eauto.
Qed.

(** ** While a read is pending *)

Lemma dprint_item_done fs s it : forall w path,
  dprint_item FO ext source fs w path it (done FO s) = (done FO s, print_item FO ext source fs s w path it).
Proof.
  induction it as [f|sh its IH] using item_ind'; intros w path; cbn [dprint_item].
  - unfold dprint_field. cbn [print_item]. destruct (fd_name (f_d f)); [|reflexivity]. rewrite touch_done. reflexivity.
  - cbn [print_item]. rewrite touch_done. change (ds_st FO (done FO s)) with s.
    destruct (keys_from FO fs s [] (path ++ [sh])) as [ks|e]; [|reflexivity]. cbn [bind]. cbv zeta. generalize (width its ks). intro w'.
    match goal with |- match ?X with _ => _ end = (_, bind ?Y _) => assert (E : X = (done FO s, Y)) end.
    { induction its as [|it its IHi]; [reflexivity|]. inversion_clear IH as [|? ? IH1 IH2]. rewrite IH1.
      destruct (print_item FO ext source fs s w' (path ++ [sh]) it) as [x|e]; [|reflexivity]. cbn [bind]. rewrite (IHi IH2).
      match goal with |- context [bind ?Y _] => destruct Y as [y|e]; reflexivity end. }
    rewrite E. match goal with |- context [bind ?Y _] => destruct Y as [y|e]; reflexivity end.
Qed.
Lemma dprint_done fs s : dprint FO ext source fs (done FO s) = (done FO s, print FO ext source fs s).
Proof.
  unfold dprint, print, print_lines. generalize (width (fs_items fs) [[]]). intro w.
  assert (E : forall its, dprint_items FO ext source fs w its (done FO s) = (done FO s, concat_map_res (print_item FO ext source fs s w []) its)).
  { induction its as [|it its IH]; [reflexivity|]. cbn [dprint_items concat_map_res]. rewrite dprint_item_done.
    destruct (print_item FO ext source fs s w [] it) as [x|e]; [|reflexivity]. cbn [bind]. rewrite IH.
    destruct (concat_map_res (print_item FO ext source fs s w []) its); reflexivity. }
  rewrite E. destruct (concat_map_res (print_item FO ext source fs s w []) (fs_items fs)); reflexivity.
Qed.

(** Once a field has been looked at, a structure whose reading was put off prints like one that was
    read at once. *)
Theorem C48_delayed_partial fs (tre lit : bool) (s s' : state) inp rest nm k : read FO fs lit s inp = Ok (s', rest) ->
  snd (dprint FO ext source fs (fst (dstep FO fs tre {| ds_st := s; ds_pending := Some (lit, inp) |} (OGet FO nm k))))
  = print FO ext source fs s'.
Proof.
  intro HR. cbn [dstep]. unfold force. cbn [ds_pending ds_st]. rewrite HR. cbn [on_forced step fst].
  cbn [ds_st ds_pending fst]. exact (f_equal snd (dprint_done fs s')).
Qed.

(** Rows of a table whose printing evaluates no expression that names a field. *)
Fixpoint quiet (it : item) : Prop :=
  match it with
  | IField f => fd_name (f_d f) = None \/ own_refs f = []
  | ILoop sh its => expr_refs sh = [] /\ (fix all l := match l with [] => True | i :: l' => quiet i /\ all l' end) its
  end.
(** Rows whose printing starts with such an expression. *)
Definition loud (it : item) : Prop :=
  match it with
  | IField f => fd_name (f_d f) <> None /\ own_refs f <> []
  | ILoop sh _ => expr_refs sh <> []
  end.

Lemma dprint_quiet fs d it : quiet it -> forall w path, flat_map expr_refs path = [] ->
  dprint_item FO ext source fs w path it d = (d, print_item FO ext source fs (ds_st FO d) w path it).
Proof.
  induction it as [f|sh its IH] using item_ind'; intros Q w path HP; cbn [dprint_item].
  - unfold dprint_field. destruct (fd_name (f_d f)) eqn:N; [|cbn [print_item]; now rewrite N].
    destruct Q as [Q|Q]; [congruence|]. rewrite HP, Q. cbn [app touch]. reflexivity.
  - destruct Q as [Q1 Q2]. assert (HP' : flat_map expr_refs (path ++ [sh]) = []).
    { rewrite flat_map_app, HP. cbn. now rewrite Q1. }
    rewrite HP'. cbn [touch print_item].
    destruct (keys_from FO fs (ds_st FO d) [] (path ++ [sh])) as [ks|e]; [|reflexivity]. cbn [bind]. cbv zeta. generalize (width its ks). intro w'.
    match goal with |- match ?X with _ => _ end = (_, bind ?Y _) => assert (E : X = (d, Y)) end.
    { induction its as [|it its IHi]; [reflexivity|]. inversion_clear IH as [|? ? IH1 IH2]. destruct Q2 as [Q2 Q3]. rewrite (IH1 Q2 _ _ HP').
      destruct (print_item FO ext source fs (ds_st FO d) w' (path ++ [sh]) it) as [x|e]; [|reflexivity]. cbn [bind]. rewrite (IHi IH2 Q3).
      match goal with |- context [bind ?Y _] => destruct Y as [y|e]; reflexivity end. }
    rewrite E. match goal with |- context [bind ?Y _] => destruct Y as [y|e]; reflexivity end.
Qed.

Lemma dprint_loud fs lit (s s' : state) inp rest it w : loud it -> read FO fs lit s inp = Ok (s', rest) ->
  dprint_item FO ext source fs w [] it {| ds_st := s; ds_pending := Some (lit, inp) |} = dprint_item FO ext source fs w [] it (done FO s').
Proof.
  intros L HR.
  assert (T : forall refs, refs <> [] -> touch FO fs refs {| ds_st := s; ds_pending := Some (lit, inp) |} = touch FO fs refs (done FO s')).
  { intros [|r refs] N; [congruence|]. cbn [touch]. unfold force. cbn [ds_pending ds_st]. rewrite HR. reflexivity. }
  destruct it as [f|sh its]; cbn [dprint_item loud] in *.
  - unfold dprint_field. destruct L as [L1 L2]. destruct (fd_name (f_d f)); [|congruence]. now rewrite T.
  - rewrite T; [reflexivity|]. cbn. now rewrite app_nil_r.
Qed.

(** A structure whose read is pending prints its old values for the rows up to the first whose printing evaluates an
    expression that names a field, which makes the read happen, and those of the file from there on. *)
Theorem C48_pending fs lit (s s' : state) inp rest its1 its2 :
  read FO fs lit s inp = Ok (s', rest) -> fs_items fs = its1 ++ its2 -> Forall quiet its1 ->
  (forall it its, its2 = it :: its -> loud it) ->
  let w := width (fs_items fs) [[]] in
  let late := {| ds_st := s; ds_pending := Some (lit, inp) |} in
  dprint FO ext source fs late =
  match concat_map_res (print_item FO ext source fs s w []) its1, its2 with
  | Err e, _ => (late, Err e)
  | Ok l1, [] => (late, Ok (unlines l1))
  | Ok l1, _ :: _ => (done FO s', do l2 <- concat_map_res (print_item FO ext source fs s' w []) its2; Ok (unlines (l1 ++ l2)))
  end.
Proof.
  intros HR HI HQ HL. cbv zeta. unfold dprint. rewrite HI. generalize (width (its1 ++ its2) [[]]). intro w.
  assert (D : forall its, dprint_items FO ext source fs w its (done FO s') = (done FO s', concat_map_res (print_item FO ext source fs s' w []) its)).
  { induction its as [|it its IH]; [reflexivity|]. cbn [dprint_items concat_map_res]. rewrite dprint_item_done.
    destruct (print_item FO ext source fs s' w [] it) as [x|e]; [|reflexivity]. cbn [bind]. rewrite IH.
    destruct (concat_map_res (print_item FO ext source fs s' w []) its); reflexivity. }
  set (late := {| ds_st := s; ds_pending := Some (lit, inp) |}).
  assert (E : dprint_items FO ext source fs w (its1 ++ its2) late =
    match concat_map_res (print_item FO ext source fs s w []) its1, its2 with
    | Err e, _ => (late, Err e)
    | Ok l1, [] => (late, Ok l1)
    | Ok l1, _ :: _ => (done FO s', do l2 <- concat_map_res (print_item FO ext source fs s' w []) its2; Ok (l1 ++ l2))
    end).
  { clear HI. induction HQ as [|it its1 Q _ IH]; cbn [app dprint_items concat_map_res].
    - destruct its2 as [|it its2]; [reflexivity|]. unfold late. cbn [dprint_items]. rewrite (dprint_loud fs lit s s' inp rest it w (HL it its2 eq_refl) HR).
      pose proof (D (it :: its2)) as D2. cbn [dprint_items] in D2. rewrite D2.
      match goal with |- _ = (_, bind ?X _) => change (concat_map_res (print_item FO ext source fs s' w []) (it :: its2)) with X; destruct X; reflexivity end.
    - rewrite dprint_quiet by auto. cbn [ds_st late]. fold late.
      destruct (print_item FO ext source fs s w [] it) as [x|e]; [|reflexivity]. cbn [bind]. rewrite IH.
      destruct (concat_map_res (print_item FO ext source fs s w []) its1) as [l1|e]; [|reflexivity]. cbn [bind].
      destruct its2 as [|i2 its2]; [reflexivity|]. destruct (concat_map_res (print_item FO ext source fs s' w []) (i2 :: its2)) as [l2|e]; [|reflexivity].
      cbn [bind]. now rewrite app_assoc. }
  rewrite E. destruct (concat_map_res (print_item FO ext source fs s w []) its1) as [l1|e]; [|reflexivity].
  destruct its2 as [|i2 its2]; [reflexivity|]. destruct (concat_map_res (print_item FO ext source fs s' w []) (i2 :: its2)); reflexivity.
Qed.
End P.
