(** What a new structure shows, and which new structures of the library can be written (C52). *)
From Verif Require Import Base BaseLemmas Engine Wf EngineLemmas Deps TextSpec Spec Decimal P_Codec P_Descs P_Expr.
From Coq Require Import ZifyBool ZifyNat ZifyN.
Open Scope list_scope.

Section New.
Variable FO : FloatOps.
Variable rows : list row.
Notation fs := (mk_fs rows).
Variable nm : string.
Variable f : field.
Hypothesis Hwf : wf_rows rows = true.
Hypothesis Hf : refers fs nm f.
Hypothesis Hl : f_loops f = [].
Hypothesis Hc : fd_cond (f_d f) = None.
Hypothesis Hv : fd_value (f_d f) = None.

Lemma new_shows x v : holding FO (init_state FO) f [] x -> typed FO fs (init_state FO) f [] x v -> get FO fs (init_state FO) nm [] = Ok v.
Proof. intros H T. apply C52_shows; [exact Hwf|]. exists f. split; [exact Hf|]. eapply sh_held; eauto; [now apply ir_scalar|now apply co_none]. Qed.
Lemma new_only x v : holding FO (init_state FO) f [] x -> get FO fs (init_state FO) nm [] = Ok v -> typed FO fs (init_state FO) f [] x v.
Proof.
  intros H G. apply C52_shows in G; [|exact Hwf]. destruct G as (f' & R & S).
  assert (f' = f) as ->. { apply refers_iff in R, Hf. congruence. }
  remember (@nil Z) as k eqn:K. destruct S as [f k I C|f k e w v I C V|f k y v I C V Y T].
  - inversion C; congruence.
  - congruence.
  - apply holding_iff in H, Y. congruence.
Qed.

(** A field with an ordinary type shows the default of its row; without one, None if it is
    optional, else the empty text or zero. *)
Theorem C52_new : fd_default (f_d f) = DfNone ->
  (fd_optional (f_d f) = true -> get FO fs (init_state FO) nm [] = Ok VNone)
  /\ (fd_optional (f_d f) = false ->
       (fd_ty (f_d f) = TStr -> get FO fs (init_state FO) nm [] = Ok (VStr []))
       /\ (fd_ty (f_d f) = TInt -> get FO fs (init_state FO) nm [] = Ok (VInt 0))
       /\ (forall x, fd_ty (f_d f) = TFloat -> fl_of_Z FO 0 = Some x -> get FO fs (init_state FO) nm [] = Ok (VFloat x))
       /\ (fd_ty (f_d f) = TBytes \/ fd_ty (f_d f) = TData KBytes -> get FO fs (init_state FO) nm [] = Ok (VBytes []))
       /\ (fd_ty (f_d f) = TData KString -> get FO fs (init_state FO) nm [] = Ok (VStr []))).
Proof.
  intro D. split.
  - intro O. apply (new_shows (SVal VNone)); [|apply ty_nothing; split; auto]. right. split; [reflexivity|]. do 3 right. auto.
  - intro O. assert (N : forall w, ~ nothing FO (f_d f) (SVal w)) by (intros w (E & _); congruence).
    assert (H0 : fd_ty (f_d f) <> TStr -> holding FO (init_state FO) f [] (SVal (VInt 0))).
    { intro T. right. split; [reflexivity|]. do 3 right. split; [exact D|]. right. auto. }
    assert (B0 : as_bytes FO (VInt 0) []) by (right; split; [now left|constructor]).
    repeat split.
    + intro T. apply (new_shows (SVal (VStr []))).
      * right. split; [reflexivity|]. do 3 right. split; [exact D|]. right. auto.
      * apply (ty_str FO fs _ f [] _ (VStr []) [] []); auto; [now left|do 4 right; now left|]. exists []. repeat split; [constructor|]. intros a c E. destruct a; discriminate E.
    + intro T. apply (new_shows (SVal (VInt 0))); [apply H0; congruence|]. apply (ty_int FO fs _ f [] _ (VInt 0)); auto; [now left|left; now left].
    + intros x T E. apply (new_shows (SVal (VInt 0))); [apply H0; congruence|]. apply (ty_float FO fs _ f [] _ (VInt 0)); auto; [now left|right; left]. exists 0%Z. split; [now left|exact E].
    + intro T. apply (new_shows (SVal (VInt 0))); [apply H0; destruct T; congruence|]. apply (ty_bytes FO fs _ f [] _ (VInt 0)); auto; [now left|tauto].
    + intro T. apply (new_shows (SVal (VInt 0))); [apply H0; congruence|]. apply (ty_dstr FO fs _ f [] _ (VInt 0)); auto. now left.
Qed.
(** A binary number cannot be read before it is set, unless it has three bytes. *)
Theorem C52_binary v n : fd_default (f_d f) = DfNone -> fd_optional (f_d f) = false -> fd_size (f_d f) = SzInt n ->
  (fd_ty (f_d f) = TData KFloat -> get FO fs (init_state FO) nm [] <> Ok v)
  /\ (forall sg, fd_ty (f_d f) = TData (KInt sg) -> n <> 0%Z -> (n - fd_size_offset (f_d f) <> 3)%Z -> get FO fs (init_state FO) nm [] <> Ok v).
Proof.
  intros D O SZ.
  assert (H0 : fd_ty (f_d f) <> TStr -> holding FO (init_state FO) f [] (SVal (VInt 0))).
  { intro T. right. split; [reflexivity|]. do 3 right. split; [exact D|]. right. auto. }
  assert (B0 : forall w b, plain FO (SVal (VInt 0)) w -> as_bytes FO w b -> b = []).
  { intros w b [E|(b' & E & _)] A; [injection E as <-|discriminate E]. destruct A as [A|([A|[(A & _)|(A & _)]] & _)]; try discriminate A. injection A as A. destruct b; [reflexivity|cbn in A; lia]. }
  split.
  - intros T G. apply (new_only (SVal (VInt 0))) in G; [|apply H0; congruence]. inversion G as [? ? ? NT|? ? ? ? ? ? N P T'|? ? ? ? ? N P T'|? ? ? ? ? N P T'|? ? ? ? ? N P T'|? ? ? ? ? N P T'|? ? ? w b N P T' A L|? ? ? ? ? ? ? ? N P T']; subst; try congruence.
    + destruct NT; congruence.
    + destruct T' as [T'|[T'|T']]; congruence.
    + apply B0 in A; [|exact P]. subst b. discriminate L.
  - intros sg T N0 N3 G. apply (new_only (SVal (VInt 0))) in G; [|apply H0; congruence]. inversion G as [? ? ? NT|? ? ? ? ? ? N P T'|? ? ? ? ? N P T'|? ? ? ? ? N P T'|? ? ? ? ? N P T'|? ? ? ? ? N P T'|? ? ? w b N P T' A L|? ? ? w b sg' n' z N P T' A S R B]; subst; try congruence.
    + destruct NT; congruence.
    + destruct T' as [T'|[T'|T']]; congruence.
    + apply B0 in A; [|exact P]. subst b. cbn in R. assert (n' = (n - fd_size_offset (f_d f))%Z) by (inversion S as [? ? ? ? E Q|? ? ? ? ? ? E]; subst; rewrite SZ in E; [injection E as <-; lia|discriminate E]). lia.
Qed.
End New.

(** New structures of the library that cannot be written as they are. *)
Definition unwritable : list string := ["TreBANDSB"; "TreILLUMB"; "TreMTIMSA"; "TrePIXMTA"; "TrePIXQLA"; "TreRSMAPB"]%string.
Definition new_writes (rows : list row) : bool :=
  match write DecF (mk_fs rows) (init_state DecF) with Ok _ => true | Err _ => false end.
Definition listed (cls : string) : bool := existsb (String.eqb cls) unwritable.
Lemma new_written : forallb (fun p => Bool.eqb (new_writes (snd p)) (negb (listed (fst p)))) shipped = true.
Proof. vm_compute. reflexivity. Qed.
Lemma listed_iff cls : listed cls = true <-> In cls unwritable.
Proof.
  unfold listed. rewrite existsb_exists. split.
  - intros (x & I & E). apply String.eqb_eq in E. now subst.
  - intro I. exists cls. split; [exact I|apply String.eqb_refl].
Qed.
(** Exactly these cannot be written before something is assigned. *)
Theorem C52_shipped cls rows : In (cls, rows) shipped ->
  (In cls unwritable <-> forall b, write DecF (mk_fs rows) (init_state DecF) <> Ok b).
Proof.
  intro I. assert (H := proj1 (forallb_forall _ _) new_written _ I). cbn [fst snd] in H. apply eqb_prop in H. rewrite <- listed_iff. unfold new_writes in H.
  revert H. generalize (write DecF (mk_fs rows) (init_state DecF)). intros r H. destruct r as [b|e]; destruct (listed cls); cbn [negb] in H; try discriminate H.
  - split; [discriminate|]. intro N. now destruct (N b).
  - split; [discriminate|reflexivity].
Qed.
(** So not every new structure can be written. *)
Theorem C52_written_refuted : exists cls rows, In (cls, rows) shipped /\ forall b, write DecF (mk_fs rows) (init_state DecF) <> Ok b.
Proof.
  assert (E : exists rows, In ("TreMTIMSA"%string, rows) shipped).
  { assert (H : existsb (fun p => String.eqb "TreMTIMSA" (fst p)) shipped = true) by (vm_compute; reflexivity). apply existsb_exists in H as ((c & rows) & I & E). apply String.eqb_eq in E.
    cbn [fst] in E. subst c. exists rows. exact I. }
  destruct E as (rows & I). exists "TreMTIMSA"%string, rows. split; [exact I|]. apply (C52_shipped _ _ I). vm_compute. auto.
Qed.
Example ex_c52_new FO : get FO (mk_fs expr_rows) (init_state FO) "n" [] = Ok (VInt 0) /\ get FO (mk_fs expr_rows) (init_state FO) "t" [] = Ok (VStr []).
Proof.
  assert (W : wf_rows expr_rows = true) by (vm_compute; reflexivity). split.
  - destruct (lookup (mk_fs expr_rows) "n") as [f|] eqn:L; [|vm_compute in L; discriminate L]. assert (R := proj2 (refers_iff _ _ _) L).
    vm_compute in L. injection L as <-. destruct (proj2 (C52_new FO expr_rows "n" _ W R eq_refl eq_refl eq_refl eq_refl) eq_refl) as (_ & H & _). exact (H eq_refl).
  - destruct (lookup (mk_fs expr_rows) "t") as [f|] eqn:L; [|vm_compute in L; discriminate L]. assert (R := proj2 (refers_iff _ _ _) L).
    vm_compute in L. injection L as <-. destruct (proj2 (C52_new FO expr_rows "t" _ W R eq_refl eq_refl eq_refl eq_refl) eq_refl) as (H & _). exact (H eq_refl).
Qed.
(** Two binary numbers: the four byte one cannot be read at first, the three byte one is 0. *)
Definition binary_rows : list row :=
  [RField (fdesc0 (Some "m"%string) (SzInt 4) (TData (KInt false))); RField (fdesc0 (Some "k"%string) (SzInt 3) (TData (KInt false)))].
Example ex_c52_binary FO : (forall v, get FO (mk_fs binary_rows) (init_state FO) "m" [] <> Ok v) /\ get FO (mk_fs binary_rows) (init_state FO) "k" [] = Ok (VInt 0).
Proof.
  assert (W : wf_rows binary_rows = true) by (vm_compute; reflexivity). split; [|vm_compute; reflexivity]. intro v.
  destruct (lookup (mk_fs binary_rows) "m") as [f|] eqn:L; [|vm_compute in L; discriminate L]. assert (R := proj2 (refers_iff _ _ _) L).
  vm_compute in L. injection L as <-. apply (proj2 (C52_binary FO binary_rows "m" _ W R eq_refl eq_refl eq_refl v 4%Z eq_refl eq_refl eq_refl) false eq_refl); discriminate.
Qed.

Print Assumptions C52_new.
Print Assumptions C52_binary.
Print Assumptions C52_shipped.
Print Assumptions C52_written_refuted.
