(** What the records of an ENGRDA TRE show, whatever was read (C37). *)
From Verif Require Import Base BaseLemmas Engine DescsTre Utf8 Engrda P_Engrda.
From Coq Require Import ZifyBool ZifyNat ZifyN.
Open Scope list_scope.
Ltac Zify.zify_post_hook ::= idtac.

(** The letters of numbers and the sizes numpy has for them. *)
Definition number_code (c : N) (n : Z) : Prop :=
  (c = 73%N /\ In n [1; 2; 4; 8]%Z) \/ (c = 83%N /\ In n [1; 2; 4; 8]%Z) \/ (c = 82%N /\ In n [2; 4; 8]%Z) \/ (c = 67%N /\ n = 8%Z).
(** [b] is the array of [r] times [k] numbers of [n] bytes. *)
Definition matrix (n r k : Z) (b : list N) (items : list (list N)) : Prop :=
  b = List.concat items /\ Forall (fun x => Z.of_nat (List.length x) = n) items /\ (0 <= r)%Z /\ (0 <= k)%Z /\ Z.of_nat (List.length items) = (r * k)%Z.

Lemma number_code_iff c n : number_code c n <-> (((c =? 73)%N || (c =? 83)%N || (c =? 82)%N || (c =? 67)%N) = true /\ np_size_ok c n = true).
Proof.
  unfold number_code, np_size_ok. cbn [In]. split.
  - intros [(-> & H)|[(-> & H)|[(-> & H)|(-> & H)]]]; cbn; split; auto; lia.
  - intros (A & B). destruct (N.eqb_spec c 73) as [->|N1]; [left; split; [reflexivity|cbn in B; lia]|].
    destruct (N.eqb_spec c 83) as [->|N2]; [right; left; split; [reflexivity|cbn in B; lia]|].
    destruct (N.eqb_spec c 82) as [->|N3]; [right; right; left; split; [reflexivity|cbn in B; lia]|].
    destruct (N.eqb_spec c 67) as [->|N4]; [right; right; right; split; [reflexivity|cbn in B; lia]|discriminate A].
Qed.
Lemma cut_pieces n : (0 < n)%nat -> forall f b, (List.length b <= f)%nat -> (exists q, List.length b = q * n)%nat ->
  List.concat (cut f n b) = b /\ Forall (fun x => List.length x = n) (cut f n b).
Proof.
  intro Hn. induction f as [|f IH]; intros b Hf (q & Q).
  - destruct b; [split; [reflexivity|constructor]|cbn in Hf; lia].
  - cbn [cut]. destruct b as [|c b]; [split; [reflexivity|constructor]|]. destruct q as [|q]; [cbn in Q; lia|].
    assert (LN : (n <= List.length (c :: b))%nat) by (rewrite Q; cbn; lia).
    destruct (IH (skipn n (c :: b))) as (A & B).
    + rewrite skipn_length. cbn [List.length] in *. lia.
    + exists q. rewrite skipn_length, Q. cbn. lia.
    + cbn [List.concat]. rewrite A. split; [apply firstn_skipn|]. constructor; [|exact B]. rewrite firstn_length. lia.
Qed.

(** A record shows: a text, the bytes themselves, or an array of numbers of a kind and size numpy
    has, of as many rows and columns as the record says, which must be what is there. *)
Theorem C37_reads FO (s : state FO) i typ n r k b o :
  get FO (mk_fs desc_TreENGRDA) s "engtyp" [i] = Ok (VStr typ) -> get FO (mk_fs desc_TreENGRDA) s "engdts" [i] = Ok (VInt n) ->
  get FO (mk_fs desc_TreENGRDA) s "engmtxr" [i] = Ok (VInt r) -> get FO (mk_fs desc_TreENGRDA) s "engmtxc" [i] = Ok (VInt k) ->
  get FO (mk_fs desc_TreENGRDA) s "engdata" [i] = Ok (VBytes b) -> all_bytes b = true ->
  get_data FO s i = Ok o <->
    (typ = str "A" /\ n = 1%Z /\ exists t, utf8_enc t = Some b /\ o = EoStr t)
    \/ (typ = str "B" /\ n = 1%Z /\ o = EoBytes b)
    \/ exists c items, typ = [c] /\ number_code c n /\ matrix n r k b items /\ o = EoArr c n r k items.
Proof.
  intros T D R K B AB. unfold get_data. rewrite B. cbn [bind]. unfold eunpack, estr, eint. rewrite T, D, R, K. cbn [bind].
  change (str "A") with [65%N]. change (str "B") with [66%N].
  destruct (list_eqb typ [65%N] && (n =? 1)%Z) eqn:EA.
  { apply andb_true_iff in EA as (EA & E1). apply list_eqb_spec in EA. apply Z.eqb_eq in E1. subst typ n. split.
    - destruct (utf8_dec b) as [t|] eqn:U; [|discriminate]. intro H. injection H as <-. left. split; [reflexivity|]. split; [reflexivity|]. exists t. split; [|reflexivity]. now apply utf8_dec_enc.
    - intros [(_ & _ & t & U & ->)|[(E & _)|(c & items & E & C & _)]]; [|discriminate E|injection E as <-; exfalso; destruct C as [(C & _)|[(C & _)|[(C & _)|(C & _)]]]; discriminate C].
      apply utf8_enc_dec in U. now rewrite U. }
  destruct (list_eqb typ [66%N] && (n =? 1)%Z) eqn:EB.
  { apply andb_true_iff in EB as (EB & E1). apply list_eqb_spec in EB. apply Z.eqb_eq in E1. subst typ n. split.
    - intro H. injection H as <-. auto.
    - intros [(E & _)|[(_ & _ & ->)|(c & items & E & C & _)]]; [discriminate E|reflexivity|injection E as <-; exfalso; destruct C as [(C & _)|[(C & _)|[(C & _)|(C & _)]]]; discriminate C]. }
  assert (NA : ~ (typ = [65%N] /\ n = 1%Z)). { intros (-> & ->). discriminate EA. }
  assert (NB : ~ (typ = [66%N] /\ n = 1%Z)). { intros (-> & ->). discriminate EB. }
  split.
  - intro H. destruct typ as [|c [|]]; try discriminate H. destruct ((c =? 73)%N || _ || _ || _) eqn:C1; [|discriminate H].
    destruct (np_size_ok c n) eqn:C2; [|discriminate H]. cbn [negb] in H. assert (C := proj2 (number_code_iff c n) (conj C1 C2)).
    assert (NP : (0 < n)%Z) by (destruct C as [(_ & C)|[(_ & C)|[(_ & C)|(_ & C)]]]; cbn in C; lia).
    set (m := Z.of_nat (List.length b)) in *. destruct (m mod n =? 0)%Z eqn:M; [|discriminate H]. apply Z.eqb_eq in M. cbn [negb] in H.
    destruct ((r <? 0)%Z || (k <? 0)%Z || negb (r * k =? m / n)%Z) eqn:F; [discriminate H|]. injection H as <-.
    apply orb_false_iff in F as (F & F3). apply orb_false_iff in F as (F1 & F2). apply negb_false_iff, Z.eqb_eq in F3.
    right. right. exists c, (cut (List.length b) (Z.to_nat n) b). split; [reflexivity|]. split; [exact C|]. split; [|reflexivity].
    assert (MQ : m = (n * (r * k))%Z) by (rewrite F3; apply Z.div_exact; lia).
    destruct (cut_pieces (Z.to_nat n) ltac:(lia) (List.length b) b (le_n _)) as (P1 & P2); [exists (Z.to_nat (r * k)); subst m; nia|].
    assert (P3 : Forall (fun x => Z.of_nat (List.length x) = n) (cut (List.length b) (Z.to_nat n) b)) by (eapply Forall_impl; [|exact P2]; cbn; intros x Hx; lia).
    split; [now symmetry|]. split; [exact P3|]. split; [lia|]. split; [lia|].
    assert (LL : forall l : list (list N), Forall (fun x => Z.of_nat (List.length x) = n) l -> Z.of_nat (List.length (List.concat l)) = (n * Z.of_nat (List.length l))%Z).
    { induction 1 as [|x l Hx _ IH]; [cbn; lia|]. cbn [List.concat List.length]. rewrite app_length. lia. }
    specialize (LL _ P3). rewrite P1 in LL. fold m in LL. nia.
  - intros [(E1 & E2 & _)|[(E1 & E2 & _)|(c & items & -> & C & (-> & F & Hr & Hk & L) & ->)]]; [now elim NA|now elim NB|].
    destruct (proj1 (number_code_iff c n) C) as (C1 & C2). rewrite C1, C2. cbn [negb].
    assert (NP : (0 < n)%Z) by (destruct C as [(_ & C)|[(_ & C)|[(_ & C)|(_ & C)]]]; cbn in C; lia).
    assert (LL : Z.of_nat (List.length (List.concat items)) = (Z.of_nat (List.length items) * n)%Z).
    { clear - F. induction F as [|x l Hx _ IH]; [cbn; lia|]. cbn [List.concat List.length]. rewrite app_length. lia. }
    rewrite LL, Z.mod_mul, Z.div_mul by lia. cbn [Z.eqb negb]. rewrite L. replace (r <? 0)%Z with false by lia. replace (k <? 0)%Z with false by lia. rewrite Z.eqb_refl. cbn [orb negb].
    do 2 f_equal. apply cut_concat; [lia| |nia]. eapply Forall_impl; [|exact F]. cbn. intros x Hx. lia.
Qed.

(** A record of letter I with two numbers of two bytes; with three bytes a number there is no
    such type; a record of letter Z shows nothing. *)
Definition eng_state FO (c : N) (n r k : Z) (b : list N) : state FO :=
  let s0 := fst (assign_all FO [(str "x", EdBytes b, [])] (init_state FO)) in
  fst (set FO (mk_fs desc_TreENGRDA) (fst (set FO (mk_fs desc_TreENGRDA) (fst (set FO (mk_fs desc_TreENGRDA) (fst (set FO (mk_fs desc_TreENGRDA) s0
    "engtyp" [0%Z] (SVal (VStr [c])))) "engdts" [0%Z] (SVal (VInt n)))) "engmtxr" [0%Z] (SVal (VInt r)))) "engmtxc" [0%Z] (SVal (VInt k))).
Example ex_c37_reads FO : get_data FO (eng_state FO 73 2 1 2 [1; 2; 3; 4]%N) 0 = Ok (EoArr 73 2 1 2 [[1; 2]; [3; 4]]%N)
  /\ get_data FO (eng_state FO 73 2 2 2 [1; 2; 3; 4]%N) 0 = Err EValue
  /\ get_data FO (eng_state FO 73 3 1 1 [1; 2; 3]%N) 0 = Err EType
  /\ get_data FO (eng_state FO 90 1 1 1 [1]%N) 0 = Err ERuntime
  /\ get_data FO (eng_state FO 65 1 1 1 [195; 169]%N) 0 = Ok (EoStr [233%N]).
Proof. repeat split; vm_compute; reflexivity. Qed.

Print Assumptions C37_reads.
