(** The expressions in the tables mean what they mean in python (C51), and which texts
    [int()] takes for a number (C16). *)
From Verif Require Import Base BaseLemmas Engine Wf EngineLemmas Deps TextSpec Spec Decimal P_Codec.
From Coq Require Import ZifyBool ZifyNat ZifyN.
Open Scope list_scope.

(** ** Numbers in text *)

(** White space for [bytes] and for [str]. *)
Definition byte_blank (c : N) : Prop := (9 <= c <= 13 \/ c = 32)%N.
Definition str_blank (c : N) : Prop :=
  (9 <= c <= 13 \/ 28 <= c <= 32 \/ c = 133 \/ c = 160 \/ c = 5760 \/ 8192 <= c <= 8202 \/ c = 8232 \/ c = 8233 \/ c = 8239 \/ c = 8287 \/ c = 12288)%N.
(** Groups of digits, an underscore before each but the first. *)
Fixpoint more_groups (gs : list (list N)) : list N :=
  match gs with [] => [] | g :: gs' => 95%N :: g ++ more_groups gs' end.
(** [l] is the number [z]: white space, a sign or none, groups of digits, white space. *)
Definition int_text (blank : N -> Prop) (l : list N) (z : Z) : Prop :=
  exists pre sg g gs post, l = pre ++ sg ++ g ++ more_groups gs ++ post
    /\ Forall blank pre /\ Forall blank post
    /\ Forall (fun d => d <> [] /\ all_digits d) (g :: gs)
    /\ ((sg = [] \/ sg = [43%N]) /\ z = Z.of_N (text_val (g ++ List.concat gs)) \/ sg = [45%N] /\ z = (- Z.of_N (text_val (g ++ List.concat gs)))%Z).

Lemma digit_iff c : is_digit c = true <-> (48 <= c <= 57)%N.
Proof. unfold is_digit. lia. Qed.
Lemma groups_read l : forall acc b n, parse_digits_us l acc b = Some n <->
  exists g gs, l = g ++ more_groups gs /\ all_digits g /\ Forall (fun d => d <> [] /\ all_digits d) gs /\ (b = false -> g <> [])
    /\ n = digval (g ++ List.concat gs) acc.
Proof.
  induction l as [|c l IH]; intros acc b n; cbn [parse_digits_us].
  - split.
    + destruct b; [|discriminate]. intro H. injection H as <-. exists [], []. repeat split; try constructor. discriminate.
    + intros (g & gs & E & _ & _ & N & ->). destruct g; [|discriminate E]. destruct gs; [|discriminate E]. destruct b; [reflexivity|]. now destruct N.
  - destruct (is_digit c) eqn:D.
    + rewrite IH. split.
      * intros (g & gs & -> & A & B & _ & ->). exists (c :: g), gs. repeat split; auto; [constructor; auto; now apply digit_iff|discriminate].
      * intros (g & gs & E & A & B & N & ->). destruct g as [|d g].
        -- destruct gs as [|g' gs]; [discriminate E|]. cbn in E. injection E as -> _. discriminate D.
        -- cbn in E. injection E as -> ->. inversion_clear A as [|? ? A1 A2]. exists g, gs. repeat split; auto. discriminate.
    + destruct ((c =? 95)%N && b) eqn:U.
      * rewrite andb_true_iff, N.eqb_eq in U. destruct U as (-> & ->). split.
        -- destruct l as [|c' l']; [discriminate|]. destruct (is_digit c') eqn:D'; [|discriminate]. intro H. apply IH in H as (g & gs & E & A & B & N & ->).
           exists [], (g :: gs). cbn [app more_groups List.concat]. rewrite E. repeat split; auto; try constructor; auto. discriminate.
        -- intros (g & gs & E & A & B & _ & ->). destruct g as [|d g]; [|cbn in E; injection E as <- _; inversion_clear A; lia].
           destruct gs as [|g gs]; [discriminate E|]. cbn in E. injection E as ->. inversion_clear B as [|? ? (N & G) B'].
           destruct g as [|d g]; [contradiction|]. cbn [app]. inversion_clear G as [|? ? G1 G2]. rewrite (proj2 (digit_iff d) G1).
           change (d :: g ++ more_groups gs) with ((d :: g) ++ more_groups gs). apply IH. exists (d :: g), gs. repeat split; auto. now constructor.
      * split; [discriminate|]. intros (g & gs & E & A & B & N & ->). destruct g as [|d g].
        -- destruct b; [|now destruct N]. destruct gs as [|g gs]; [discriminate E|]. cbn in E. injection E as -> _. discriminate U.
        -- cbn in E. injection E as -> _. inversion_clear A as [|? ? A1 _]. apply digit_iff in A1. congruence.
Qed.
Lemma groups_last g gs : g <> [] -> all_digits g -> Forall (fun d => d <> [] /\ all_digits d) gs -> exists a c, g ++ more_groups gs = a ++ [c] /\ (48 <= c <= 57)%N.
Proof.
  revert g. induction gs as [|h gs IH]; intros g N D F.
  - cbn [more_groups]. rewrite app_nil_r. destruct (exists_last N) as (a & c & ->). exists a, c. split; [reflexivity|]. apply Forall_app in D as (_ & D). now inversion_clear D.
  - inversion_clear F as [|? ? (N' & D') F']. destruct (IH h N' D' F') as (a & c & E & R). exists (g ++ 95%N :: a), c. split; [|exact R].
    cbn [more_groups]. rewrite E, <- app_assoc. reflexivity.
Qed.
Lemma strip_core ws pre x post a c d y : forallb ws pre = true -> forallb ws post = true -> x = c :: y -> x = a ++ [d] -> ws c = false -> ws d = false ->
  rstrip_by ws (lstrip_by ws (pre ++ x ++ post)) = x.
Proof.
  intros P Q X Y C D. rewrite lstrip_app_all by exact P. rewrite rstrip_lstrip by exact Q. rewrite X, lstrip_head by exact C. rewrite <- X, Y. now apply rstrip_last.
Qed.
Lemma strip_split ws l : exists pre post, l = pre ++ rstrip_by ws (lstrip_by ws l) ++ post /\ forallb ws pre = true /\ forallb ws post = true.
Proof.
  assert (P : exists pre, l = pre ++ lstrip_by ws l /\ forallb ws pre = true).
  { induction l as [|c l (pre & E & P)]; [exists []; auto|]. cbn [lstrip_by]. destruct (ws c) eqn:W; [|exists []; auto].
    exists (c :: pre). cbn. rewrite W, <- E. auto. }
  destruct P as (pre & E & P). destruct (rstrip_decomp ws (lstrip_by ws l)) as (t & E' & T). exists pre, t. rewrite <- E'. auto.
Qed.

Lemma int_text_iff ws blank l z : ws_ok ws -> (forall c, ws c = true <-> blank c) -> parse_int ws l = Some z <-> int_text blank l z.
Proof.
  intros OK HB.
  assert (FB : forall m, forallb ws m = true <-> Forall blank m).
  { intro m. rewrite forallb_forall, Forall_forall. split; intros H x I; apply HB, H, I. }
  assert (ND : forall c, (48 <= c <= 57)%N -> ws c = false).
  { intros c R. destruct (ws c) eqn:E; [|reflexivity]. apply OK in E. unfold ws_str in E. lia. }
  assert (NS : ws 43%N = false /\ ws 45%N = false).
  { split; [destruct (ws 43%N) eqn:E|destruct (ws 45%N) eqn:E]; auto; apply OK in E; vm_compute in E; discriminate E. }
  assert (Core : forall body n, parse_digits_us body 0 false = Some n <->
     exists g gs, body = g ++ more_groups gs /\ Forall (fun d => d <> [] /\ all_digits d) (g :: gs) /\ n = text_val (g ++ List.concat gs)).
  { intros body n. rewrite groups_read. split.
    - intros (g & gs & E & A & B & N & ->). exists g, gs. repeat split; auto. now rewrite text_val_digval.
    - intros (g & gs & E & A & ->). inversion_clear A as [|? ? (A1 & A2) A3]. exists g, gs. repeat split; auto. now rewrite text_val_digval. }
  split.
  - unfold parse_int. destruct (strip_split ws l) as (pre & post & E & P & Q). revert E. generalize (rstrip_by ws (lstrip_by ws l)). intros core E H.
    assert (X : exists sg body n, core = sg ++ body /\ parse_digits_us body 0 false = Some n /\ ((sg = [] \/ sg = [43%N]) /\ z = Z.of_N n \/ sg = [45%N] /\ z = (- Z.of_N n)%Z)).
    { assert (W : forall sg body (f : N -> Z), core = sg ++ body -> option_map f (parse_digits_us body 0 false) = Some z ->
          ((sg = [] \/ sg = [43%N]) /\ f = Z.of_N \/ sg = [45%N] /\ f = fun n => (- Z.of_N n)%Z) -> exists sg body n, core = sg ++ body
            /\ parse_digits_us body 0 false = Some n /\ ((sg = [] \/ sg = [43%N]) /\ z = Z.of_N n \/ sg = [45%N] /\ z = (- Z.of_N n)%Z)).
      { intros sg body f EC M K. destruct (parse_digits_us body 0 false) as [n|] eqn:PD; [|discriminate M]. cbn in M. injection M as <-.
        exists sg, body, n. split; [exact EC|]. split; [exact PD|]. destruct K as [(K1 & ->)|(K1 & ->)]; auto. }
      destruct core as [|c core']; [discriminate H|].
      destruct (N.eq_dec c 43) as [->|N1]; [apply (W [43%N] core' Z.of_N); auto|].
      destruct (N.eq_dec c 45) as [->|N2]; [apply (W [45%N] core' (fun n => (- Z.of_N n)%Z)); auto|].
      apply (W [] (c :: core') Z.of_N); auto.
      destruct c as [|p]; [exact H|]. do 6 (destruct p as [p|p|]; try exact H; try (now destruct N1); try (now destruct N2)). }
    destruct X as (sg & body & n & -> & PD & K). apply Core in PD as (g & gs & -> & F & ->). exists pre, sg, g, gs, post.
    rewrite <- !app_assoc in E. split; [exact E|]. split; [now apply FB|]. split; [now apply FB|]. split; [exact F|exact K].
  - intros (pre & sg & g & gs & post & -> & P & Q & F & K). apply FB in P, Q. assert (PD := proj2 (Core _ _) (ex_intro _ g (ex_intro _ gs (conj eq_refl (conj F eq_refl))))).
    inversion_clear F as [|? ? (N & D) F']. destruct (groups_last g gs N D F') as (a & d & EL & RD).
    replace (pre ++ sg ++ g ++ more_groups gs ++ post) with (pre ++ (sg ++ g ++ more_groups gs) ++ post) by now rewrite <- !app_assoc.
    unfold parse_int. destruct g as [|c0 g]; [contradiction|]. inversion_clear D as [|? ? D0 _].
    assert (SG : sg = [] \/ sg = [43%N] \/ sg = [45%N]) by tauto.
    rewrite EL in PD. rewrite EL.
    assert (ST : exists c1 y, sg ++ a ++ [d] = c1 :: y /\ ws c1 = false).
    { destruct SG as [->|[->| ->]]; cbn [app].
      - rewrite <- EL. exists c0, (g ++ more_groups gs). split; [reflexivity|now apply ND].
      - exists 43%N, (a ++ [d]). split; [reflexivity|apply NS].
      - exists 45%N, (a ++ [d]). split; [reflexivity|apply NS]. }
    destruct ST as (c1 & y & EC & WC).
    rewrite (strip_core ws pre (sg ++ a ++ [d]) post (sg ++ a) c1 d y); auto; [|now rewrite app_assoc].
    destruct K as [([-> | ->] & ->)|(-> & ->)]; cbn [app].
    + rewrite <- EL in PD |- *. destruct c0 as [|p]; [lia|]. cbn [app] in *.
      assert (R : (48 <= N.pos p <= 57)%N) by exact D0.
      do 6 (destruct p as [p|p|]; try lia; try (rewrite PD; reflexivity)).
    + rewrite PD. reflexivity.
    + rewrite PD. reflexivity.
Qed.
Lemma byte_blank_iff c : ws_byte c = true <-> byte_blank c.
Proof. unfold ws_byte, byte_blank. lia. Qed.
Lemma str_blank_iff c : ws_str c = true <-> str_blank c.
Proof. unfold ws_str, str_blank. lia. Qed.

(** Exactly these texts are numbers. *)
Theorem C16_accepts l z :
  (parse_int ws_byte l = Some z <-> int_text byte_blank l z) /\ (parse_int ws_str l = Some z <-> int_text str_blank l z).
Proof. split; apply int_text_iff; auto using ws_ok_byte, ws_ok_str, byte_blank_iff, str_blank_iff. Qed.
Example ex_c16_accepts : int_text byte_blank (str " -1_000 ") (-1000) /\ parse_int ws_byte (str " -1_000 ") = Some (-1000)%Z
  /\ parse_int ws_byte (str "1__0") = None /\ parse_int ws_byte (str "_1") = None /\ parse_int ws_byte (str "1_") = None /\ parse_int ws_byte (str "- 1") = None.
Proof. split; [apply (proj1 (C16_accepts _ _)); vm_compute; reflexivity|]. vm_compute. auto 6. Qed.

(** ** What a structure shows *)

Section Meaning.
Variable FO : FloatOps.
Variable fs : fstruct.
Variable s : state FO.
Notation pyval := (pyval FO).

(** Integers and booleans are numbers. *)
Definition number (v : pyval) (z : Z) : Prop := v = VInt z \/ (v = VBool true /\ z = 1%Z) \/ (v = VBool false /\ z = 0%Z).
Definition is_float (v : pyval) : Prop := exists x, v = VFloat x.
(** [a == b]; floating point numbers are not compared in tables. *)
Definition same (a b : pyval) : Prop := a = b \/ exists z, number a z /\ number b z.
Definition comparable (a b : pyval) : Prop := ~ is_float a /\ ~ is_float b.
(** What counts as false. *)
Definition falsy (v : pyval) : Prop :=
  v = VNone \/ number v 0 \/ v = VStr [] \/ v = VBytes [] \/ exists x, v = VFloat x /\ fl_nonzero FO x = false.
Definition holds (op : cmpop) (m n : Z) : Prop :=
  match op with CEq => m = n | CNe => m <> n | CLt => (m < n)%Z | CLe => (m <= n)%Z | CGt => (m > n)%Z | CGe => (m >= n)%Z end.
Definition is_order (op : cmpop) : Prop := op <> CEq /\ op <> CNe.
(** [int(v)], [float(v)], [bytes(v)], [str(v)]. *)
Definition as_int (v : pyval) (z : Z) : Prop :=
  number v z \/ (exists t, v = VStr t /\ int_text str_blank t z) \/ (exists t, v = VBytes t /\ int_text byte_blank t z)
  \/ exists x, v = VFloat x /\ fl_to_Z FO x = Some z.
Definition as_float (v : pyval) (x : fl FO) : Prop :=
  v = VFloat x \/ (exists z, number v z /\ fl_of_Z FO z = Some x) \/ exists t, (v = VStr t \/ v = VBytes t) /\ fl_parse FO t = Some x.
Definition as_bytes (v : pyval) (b : list N) : Prop :=
  v = VBytes b \/ number v (Z.of_nat (List.length b)) /\ Forall (eq 0%N) b.
Definition as_text (v : pyval) (t : list N) : Prop :=
  (v = VNone /\ t = str "None") \/ (v = VBool true /\ t = str "True") \/ (v = VBool false /\ t = str "False")
  \/ (exists z, v = VInt z /\ ((0 <= z)%Z /\ numeral (Z.to_N z) t \/ (z < 0)%Z /\ exists ds, t = 45%N :: ds /\ numeral (Z.to_N (- z)) ds))
  \/ v = VStr t \/ v = VBytes t \/ exists x, v = VFloat x /\ t = fl_str FO x.
(** [r] is [t] without the blanks at its end. *)
Definition stripped (blank : N -> Prop) (t r : list N) : Prop :=
  exists e, t = r ++ e /\ Forall blank e /\ forall a c, r = a ++ [c] -> ~ blank c.

(** The field a name stands for: the last one of the table that has it. *)
Definition refers (nm : string) (f : field) : Prop :=
  exists before after, fs_fields fs = before ++ f :: after /\ fd_name (f_d f) = Some nm
    /\ Forall (fun g => fd_name (f_d g) <> Some nm) after.
(** What a field holds: what was put there, else the default of its row, else nothing,
    the empty string or 0. *)
Definition holding (f : field) (k : list Z) (v : sval FO) : Prop :=
  st_val FO s (f_id f) k = Some v
  \/ st_val FO s (f_id f) k = None /\
     ((exists z, fd_default (f_d f) = DfInt z /\ v = SVal (VInt z))
      \/ (exists t, fd_default (f_d f) = DfStr t /\ v = SVal (VStr t))
      \/ (exists b, fd_default (f_d f) = DfBytes b /\ v = SVal (VBytes b))
      \/ (fd_default (f_d f) = DfNone /\
          (fd_optional (f_d f) = true /\ v = SVal VNone
           \/ fd_optional (f_d f) = false /\ (fd_ty (f_d f) = TStr /\ v = SVal (VStr []) \/ fd_ty (f_d f) <> TStr /\ v = SVal (VInt 0))))).
(** Nothing is there: an optional field that is None, or whose bytes are fill. *)
Definition nothing (d : fdesc) (v : sval FO) : Prop :=
  fd_optional d = true /\ (v = SVal VNone \/ exists b, v = SLit b /\ Forall (fun c => c = fd_optchar d \/ c = 32%N) b).
(** The bytes of a literal, or the value. *)
Definition plain (v : sval FO) (w : pyval) : Prop := v = SVal w \/ exists b, v = SLit b /\ w = VBytes b.
(** Binary integers: the most significant byte first, two's complement. *)
Fixpoint big_endian (b : list N) : Z :=
  match b with [] => 0 | c :: b' => Z.of_N c * 256 ^ Z.of_nat (List.length b') + big_endian b' end%Z.
Definition binary (signed : bool) (b : list N) (z : Z) : Prop :=
  let half := (2 * big_endian b < 256 ^ Z.of_nat (List.length b))%Z in
  (signed = false \/ half) /\ z = big_endian b
  \/ signed = true /\ ~ half /\ z = (big_endian b - 256 ^ Z.of_nat (List.length b))%Z.

(** [shows f k v]: field [f] at index [k] reads as [v].
    [typed f k x v]: the held or computed [x] reads as [v].
    [means k e v]: expression [e] with index variables [k] has the value [v].
    [among k x l b]: [b] says whether [x] is equal to one of [l]. *)
Inductive shows : field -> list Z -> pyval -> Prop :=
| sh_absent f k : in_range_of f k -> condition f k false -> shows f k VNone
| sh_computed f k e w v : in_range_of f k -> condition f k true -> fd_value (f_d f) = Some e -> means k e w -> typed f k (SVal w) v -> shows f k v
| sh_held f k x v : in_range_of f k -> condition f k true -> fd_value (f_d f) = None -> holding f k x -> typed f k x v -> shows f k v
with typed : field -> list Z -> sval FO -> pyval -> Prop :=
| ty_nothing f k x : nothing (f_d f) x -> typed f k x VNone
| ty_str f k x w t r : ~ nothing (f_d f) x -> plain x w -> fd_ty (f_d f) = TStr -> as_text w t -> stripped str_blank t r -> typed f k x (VStr r)
| ty_int f k x w z : ~ nothing (f_d f) x -> plain x w -> fd_ty (f_d f) = TInt -> as_int w z -> typed f k x (VInt z)
| ty_float f k x w y : ~ nothing (f_d f) x -> plain x w -> fd_ty (f_d f) = TFloat -> as_float w y -> typed f k x (VFloat y)
| ty_bytes f k x w b : ~ nothing (f_d f) x -> plain x w -> fd_ty (f_d f) = TBytes \/ fd_ty (f_d f) = TData KBytes \/ fd_ty (f_d f) = TData KExt ->
    as_bytes w b -> typed f k x (VBytes b)
| ty_dstr f k x w b : ~ nothing (f_d f) x -> plain x w -> fd_ty (f_d f) = TData KString -> as_bytes w b -> typed f k x (VStr b)
| ty_dfloat f k x w b : ~ nothing (f_d f) x -> plain x w -> fd_ty (f_d f) = TData KFloat -> as_bytes w b -> List.length b = 4%nat ->
    typed f k x (VFloat (fl_unpack32 FO b))
| ty_dint f k x w b signed n z : ~ nothing (f_d f) x -> plain x w -> fd_ty (f_d f) = TData (KInt signed) -> as_bytes w b ->
    size_of f k n -> (n = 3 \/ (n = 1 \/ n = 2 \/ n = 4 \/ n = 8) /\ n = Z.of_nat (List.length b))%Z -> binary signed b z -> typed f k x (VInt z)
with condition : field -> list Z -> bool -> Prop :=
| co_none f k : fd_cond (f_d f) = None -> condition f k true
| co_true f k e v : fd_cond (f_d f) = Some e -> means k e v -> ~ falsy v -> condition f k true
| co_false f k e v : fd_cond (f_d f) = Some e -> means k e v -> falsy v -> condition f k false
with size_of : field -> list Z -> Z -> Prop :=
| sz_int f k n m : fd_size (f_d f) = SzInt n -> (n = 0 /\ m = 0 \/ n <> 0 /\ m = n - fd_size_offset (f_d f))%Z -> size_of f k m
| sz_expr f k e v n m : fd_size (f_d f) = SzExpr e -> means k e v -> number v n -> (n = 0 /\ m = 0 \/ n <> 0 /\ m = n - fd_size_offset (f_d f))%Z -> size_of f k m
with in_range_of : field -> list Z -> Prop :=
| ir_scalar f : f_loops f = [] -> in_range_of f []
| ir_loop f outer sh lead i n : f_loops f = outer ++ [sh] -> List.length lead = List.length outer -> count lead sh n -> (0 <= i < n)%Z -> in_range_of f (lead ++ [i])
with count : list Z -> expr -> Z -> Prop :=
| ct_none k e : means k e VNone -> count k e 0
| ct_number k e v n : means k e v -> number v n -> count k e n
with means : list Z -> expr -> pyval -> Prop :=
| me_int k z : means k (EInt z) (VInt z)
| me_str k t : means k (EStr t) (VStr t)
| me_scalar k nm f v : refers nm f -> f_loops f = [] -> shows f [] v -> means k (EFld nm 0) v
| me_looped k nm f m lead rest v : refers nm f -> f_loops f <> [] -> k = lead ++ rest -> List.length lead = m -> (0 < m)%nat -> shows f lead v -> means k (EFld nm m) v
| me_add k a b x y m n : means k a x -> means k b y -> number x m -> number y n -> means k (EAdd a b) (VInt (m + n))
| me_sub k a b x y m n : means k a x -> means k b y -> number x m -> number y n -> means k (ESub a b) (VInt (m - n))
| me_mul k a b x y m n : means k a x -> means k b y -> number x m -> number y n -> means k (EMul a b) (VInt (m * n))
| me_div k a b x y m n q r : means k a x -> means k b y -> number x m -> number y n -> (m = q * n + r -> 0 <= r < n \/ n < r <= 0 -> means k (EFloorDiv a b) (VInt q))%Z
| me_half k a b x y m n q r : means k a x -> means k b y -> number x m -> number y n ->
    (m * n = 2 * q + r -> (r = 0 \/ r = 1 /\ 0 <= m * n \/ r = -1 /\ m * n <= 0) -> means k (EHalfMul a b) (VInt q))%Z
| me_and_bits k a b x y m n z : means k a x -> means k b y -> number x m -> number y n ->
    (forall i, (0 <= i)%Z -> Z.testbit z i = Z.testbit m i && Z.testbit n i) -> means k (EBitAnd a b) (VInt z)
| me_eq k a b x y r : means k a x -> means k b y -> comparable x y -> (r = true <-> same x y) -> means k (ECmp CEq a b) (VBool r)
| me_ne k a b x y r : means k a x -> means k b y -> comparable x y -> (r = true <-> ~ same x y) -> means k (ECmp CNe a b) (VBool r)
| me_order k op a b x y m n r : is_order op -> means k a x -> means k b y -> number x m -> number y n -> (r = true <-> holds op m n) -> means k (ECmp op a b) (VBool r)
| me_in k a l x r : means k a x -> among k x l r -> means k (EIn false a l) (VBool r)
| me_not_in k a l x r : means k a x -> among k x l r -> means k (EIn true a l) (VBool (negb r))
| me_and_no k a b x : means k a x -> falsy x -> means k (EAnd a b) x
| me_and k a b x v : means k a x -> ~ falsy x -> means k b v -> means k (EAnd a b) v
| me_if k c a b x v : means k c x -> ~ falsy x -> means k a v -> means k (EIf c a b) v
| me_else k c a b x v : means k c x -> falsy x -> means k b v -> means k (EIf c a b) v
| me_int_of k a x z : means k a x -> as_int x z -> means k (EIntOf a) (VInt z)
| me_rstrip_str k a t r : means k a (VStr t) -> stripped str_blank t r -> means k (ERstrip a) (VStr r)
| me_rstrip_bytes k a t r : means k a (VBytes t) -> stripped byte_blank t r -> means k (ERstrip a) (VBytes r)
with among : list Z -> pyval -> list expr -> bool -> Prop :=
| am_nil k x : among k x [] false
| am_hit k x b l y : means k b y -> comparable x y -> same x y -> among k x (b :: l) true
| am_skip k x b l y r : means k b y -> comparable x y -> ~ same x y -> among k x l r -> among k x (b :: l) r.

Scheme shows_ind' := Minimality for shows Sort Prop
  with typed_ind' := Minimality for typed Sort Prop
  with condition_ind' := Minimality for condition Sort Prop
  with size_of_ind' := Minimality for size_of Sort Prop
  with in_range_ind' := Minimality for in_range_of Sort Prop
  with count_ind' := Minimality for count Sort Prop
  with means_ind' := Minimality for means Sort Prop
  with among_ind' := Minimality for among Sort Prop.
Combined Scheme meaning_ind from shows_ind', typed_ind', condition_ind', size_of_ind', in_range_ind', count_ind', means_ind', among_ind'.

(** *** The same in the model's terms *)
Lemma number_iff v z : number v z <-> as_Z FO v = Ok z.
Proof.
  unfold number. destruct v as [|[|]| | | |]; cbn; split; intro H; try (destruct H as [H|[(H & E)|(H & E)]]; congruence); try discriminate H.
  - right. left. split; congruence.
  - right. right. split; congruence.
  - left. congruence.
Qed.
Lemma falsy_iff v : falsy v <-> truthy FO v = false.
Proof.
  unfold falsy. split.
  - intros [->|[H|[->|[->|(x & -> & H)]]]]; auto. destruct H as [->|[(-> & E)|(-> & _)]]; [reflexivity|lia|reflexivity].
  - destruct v as [|[|]|z|[|]|[|]|x]; cbn [truthy]; intro H; try discriminate H; auto.
    + right. left. right. right. auto.
    + right. left. left. f_equal. lia.
    + do 4 right. eauto.
Qed.
Lemma not_falsy_iff v : ~ falsy v <-> truthy FO v = true.
Proof. rewrite falsy_iff. destruct (truthy FO v); split; congruence. Qed.
Lemma same_iff x y r : py_eqb FO x y = Ok r <-> comparable x y /\ (r = true <-> same x y).
Proof.
  assert (NN : forall a b : pyval, (exists z, number a z /\ number b z) <-> exists z, as_Z FO a = Ok z /\ as_Z FO b = Ok z).
  { intros a b. split; intros (z & A & B); exists z; split; now apply number_iff. }
  assert (NF : forall v : pyval, ~ is_float v <-> match v with VFloat _ => False | _ => True end).
  { intro v. unfold is_float. destruct v; split; intro H; auto; try (intros (? & E); discriminate E). apply H. eauto. }
  assert (BE : forall (P : Prop) (b : bool), (b = true <-> P) -> Ok b = Ok r <-> (True /\ True) /\ (r = true <-> P)).
  { intros P b HB. split; [intro E; injection E as <-; tauto|]. intros (_ & HR). f_equal. destruct b, r; try reflexivity; exfalso; [|].
    - now apply diff_false_true, HR, HB.
    - now apply diff_false_true, HB, HR. }
  unfold comparable, same. rewrite !NF, NN. destruct x, y; cbn [py_eqb as_Z bind]; try (split; [discriminate|tauto]);
    (apply BE); (split; [|intros [E|(z' & E1 & E2)]; try discriminate E; try discriminate E1; try discriminate E2]); auto; try discriminate.
  all: try (intro H; right; eexists; split; [reflexivity|f_equal; lia]).
  all: try (injection E as ->; lia).
  all: try (injection E1 as <-; injection E2 as E2; lia).
  all: try (intro H; left; f_equal; now apply list_eqb_spec).
  all: try (injection E as ->; now apply list_eqb_spec).
Qed.

Lemma blanks_forall ws (blank : N -> Prop) : (forall c, ws c = true <-> blank c) -> forall l, forallb ws l = true <-> Forall blank l.
Proof. intros H l. rewrite forallb_forall, Forall_forall. split; intros A x I; apply H, A, I. Qed.
Lemma stripped_iff ws (blank : N -> Prop) t r : (forall c, ws c = true <-> blank c) -> (stripped blank t r <-> r = rstrip_by ws t).
Proof.
  intro H. unfold stripped. split.
  - intros (e & -> & B & N). apply (blanks_forall ws blank H) in B. rewrite (rstrip_app_all ws r e B).
    destruct r as [|c0 r0] using rev_ind; [reflexivity|]. clear IHr0. symmetry. apply rstrip_last. destruct (ws c0) eqn:W; [|reflexivity].
    exfalso. apply (N r0 c0); [reflexivity|]. now apply H.
  - intros ->. destruct (rstrip_decomp ws t) as (e & E & B). exists e. split; [exact E|]. split; [now apply (blanks_forall ws blank H)|].
    intros a c EA X. apply H in X. assert (R : rstrip_by ws (rstrip_by ws t) = rstrip_by ws t).
    { rewrite E at 2. now rewrite rstrip_app_all. }
    rewrite EA in R at 1. rewrite (rstrip_app_all ws a [c]) in R by (cbn; now rewrite X). rewrite EA in R.
    destruct (rstrip_decomp ws a) as (e' & E' & _). apply (f_equal (@List.length N)) in R, E'. rewrite app_length in R, E'. cbn in R. lia.
Qed.
Lemma stripped_str t r : stripped str_blank t r <-> r = rstrip_by ws_str t.
Proof. apply stripped_iff, str_blank_iff. Qed.
Lemma stripped_byte t r : stripped byte_blank t r <-> r = rstrip_by ws_byte t.
Proof. apply stripped_iff, byte_blank_iff. Qed.
Lemma find_rev {A} (p : A -> bool) l x : find p (rev l) = Some x <-> exists b a, l = b ++ x :: a /\ p x = true /\ Forall (fun y => p y = false) a.
Proof.
  induction l as [|y l IH] using rev_ind.
  - cbn. split; [discriminate|]. intros (b & a & E & _). destruct b; discriminate E.
  - rewrite rev_app_distr. cbn [rev app find]. destruct (p y) eqn:P.
    + split.
      * intro E. injection E as <-. exists l, []. auto.
      * intros (b & a & E & PX & F). destruct a as [|z a _] using rev_ind; [apply app_inj_tail in E as (_ & ->); reflexivity|].
        rewrite app_comm_cons, app_assoc in E. apply app_inj_tail in E as (_ & ->). apply Forall_app in F as (_ & F). inversion_clear F. congruence.
    + rewrite IH. split.
      * intros (b & a & -> & PX & F). exists b, (a ++ [y]). rewrite <- app_assoc. split; [reflexivity|]. split; [exact PX|]. apply Forall_app. auto.
      * intros (b & a & E & PX & F). destruct a as [|z a _] using rev_ind; [apply app_inj_tail in E as (_ & ->); congruence|].
        rewrite app_comm_cons, app_assoc in E. apply app_inj_tail in E as (-> & ->). apply Forall_app in F as (F & _). eauto.
Qed.
Lemma has_name_iff nm f : has_name nm f = true <-> fd_name (f_d f) = Some nm.
Proof. unfold has_name. destruct (fd_name (f_d f)) as [x|]; [|split; discriminate]. rewrite String.eqb_eq. split; congruence. Qed.
Lemma refers_iff nm f : refers nm f <-> lookup fs nm = Some f.
Proof.
  unfold refers, lookup. rewrite find_rev. split; intros (b & a & E & P & F); exists b, a; (split; [exact E|]); (split; [now apply has_name_iff|]);
    (eapply Forall_impl; [|exact F]); intros g; cbn beta.
  - intro H. destruct (has_name nm g) eqn:X; [|reflexivity]. apply has_name_iff in X. contradiction.
  - intros H X. apply has_name_iff in X. congruence.
Qed.
Lemma holding_iff f k x : holding f k x <-> x = stored FO s f k.
Proof.
  unfold holding, stored, default_val. destruct (st_val FO s (f_id f) k) as [v|].
  - split; [intros [E|(E & _)]; congruence|]. intros ->. now left.
  - split.
    + intros [E|(_ & [(z & -> & ->)|[(t & -> & ->)|[(b & -> & ->)|(-> & [(-> & ->)|(-> & [(-> & ->)|(N & ->)])])]]])]; try reflexivity; [discriminate E|].
      destruct (fd_ty (f_d f)); congruence.
    + intros ->. right. split; [reflexivity|]. destruct (fd_default (f_d f)) as [|z|t|b]; eauto 7. do 3 right. split; [reflexivity|].
      destruct (fd_optional (f_d f)); [left; auto|right]. split; [reflexivity|]. destruct (fd_ty (f_d f)); auto; right; split; auto; discriminate.
Qed.
Lemma as_int_iff v z : as_int v z <-> conv_int FO v = Ok z.
Proof.
  unfold as_int. split.
  - intros [H|[(t & -> & H)|[(t & -> & H)|(x & -> & H)]]].
    + destruct H as [->|[(-> & ->)|(-> & ->)]]; reflexivity.
    + apply (proj2 (C16_accepts t z)) in H. cbn. now rewrite H.
    + apply (proj1 (C16_accepts t z)) in H. cbn. now rewrite H.
    + cbn. now rewrite H.
  - destruct v as [|b|m|t|t|x]; cbn; intro H; try discriminate H.
    + left. apply number_iff. exact H.
    + left. apply number_iff. exact H.
    + right. left. exists t. split; [reflexivity|]. apply (proj2 (C16_accepts t z)). destruct (parse_int ws_str t); congruence.
    + right. right. left. exists t. split; [reflexivity|]. apply (proj1 (C16_accepts t z)). destruct (parse_int ws_byte t); congruence.
    + do 3 right. exists x. split; [reflexivity|]. destruct (fl_to_Z FO x); congruence.
Qed.
Lemma as_float_iff v y : as_float v y <-> conv_float FO v = Ok y.
Proof.
  unfold as_float. split.
  - intros [->|[(z & H & E)|(t & [-> | ->] & E)]]; [reflexivity| | |]; try (cbn; now rewrite E).
    destruct H as [->|[(-> & ->)|(-> & ->)]]; cbn; now rewrite E.
  - destruct v as [|b|m|t|t|x]; cbn; intro H; try discriminate H.
    + right. left. exists (if b then 1 else 0)%Z. split; [apply number_iff; reflexivity|]. destruct (fl_of_Z FO _); congruence.
    + right. left. exists m. split; [now left|]. destruct (fl_of_Z FO _); congruence.
    + right. right. exists t. split; [auto|]. destruct (fl_parse FO t); congruence.
    + right. right. exists t. split; [auto|]. destruct (fl_parse FO t); congruence.
    + left. congruence.
Qed.
Lemma zeros_iff b n : b = repeat 0%N n <-> List.length b = n /\ Forall (eq 0%N) b.
Proof.
  revert n. induction b as [|c b IH]; intros [|n]; cbn [repeat List.length].
  - split; auto.
  - split; [discriminate|intros (E & _); discriminate E].
  - split; [discriminate|intros (E & _); discriminate E].
  - split.
    + intro E. injection E as -> E. apply IH in E as (E & F). split; [now f_equal|]. constructor; auto.
    + intros (E & F). inversion_clear F as [|? ? F1 F2]. subst c. f_equal. apply IH. split; [congruence|exact F2].
Qed.
Lemma as_bytes_iff v b : as_bytes v b <-> conv_bytes FO v = Ok b.
Proof.
  unfold as_bytes. split.
  - intros [->|(H & F)]; [reflexivity|]. destruct H as [->|[(-> & E)|(-> & E)]]; cbn [conv_bytes].
    + replace (Z.of_nat (List.length b) <? 0)%Z with false by lia. f_equal. rewrite Nat2Z.id. symmetry. apply zeros_iff. auto.
    + f_equal. symmetry. change [0%N] with (repeat 0%N 1). apply zeros_iff. split; [lia|exact F].
    + f_equal. symmetry. change (@nil N) with (repeat 0%N 0). apply zeros_iff. split; [lia|exact F].
  - destruct v as [|c|m|t|t|x]; cbn [conv_bytes]; intro H; try discriminate H.
    + right. injection H as <-. destruct c; (split; [apply number_iff; reflexivity|]); constructor; auto.
    + right. destruct (m <? 0)%Z eqn:M; [discriminate H|]. injection H as H. symmetry in H. apply zeros_iff in H as (H & F). split; [|exact F]. left. f_equal. lia.
    + left. congruence.
Qed.
Lemma as_text_iff v t : as_text v t <-> t = conv_str FO v.
Proof.
  unfold as_text. split.
  - intros [(-> & ->)|[(-> & ->)|[(-> & ->)|[(z & -> & H)|[->|[->|(x & -> & ->)]]]]]]; try reflexivity. cbn [conv_str]. unfold str_of_Z.
    destruct H as [(P & H)|(P & ds & -> & H)]; apply numeral_unique in H; rewrite H.
    + replace (z <? 0)%Z with false by lia. cbn [app]. f_equal. lia.
    + replace (z <? 0)%Z with true by lia. cbn [app]. do 2 f_equal. lia.
  - intros ->. destruct v as [|[|]|z|t|t|x]; cbn [conv_str]; auto 7; [|do 6 right; eauto].
    do 3 right. left. exists z. split; [reflexivity|]. unfold str_of_Z. destruct (z <? 0)%Z eqn:E.
    + right. split; [lia|]. exists (digits (Z.abs_N z)). split; [reflexivity|]. replace (Z.to_N (- z)) with (Z.abs_N z) by lia. apply numeral_digits.
    + left. split; [lia|]. cbn [app]. replace (Z.to_N z) with (Z.abs_N z) by lia. apply numeral_digits.
Qed.
Lemma big_endian_val b : big_endian b = Z.of_N (be_val b).
Proof.
  induction b as [|c b IH]; [reflexivity|]. cbn [big_endian]. rewrite IH. change (c :: b) with ([c] ++ b). rewrite be_val_app.
  replace (be_val [c]) with c by (unfold be_val; cbn; lia). rewrite N2Z.inj_add, N2Z.inj_mul, N2Z.inj_pow, nat_N_Z. reflexivity.
Qed.
Lemma binary_iff sg b z : binary sg b z <-> z = be_val_s sg b.
Proof.
  unfold binary, be_val_s. rewrite big_endian_val. destruct sg; cbn [andb].
  - destruct (256 ^ Z.of_nat (List.length b) <=? 2 * Z.of_N (be_val b))%Z eqn:E; split.
    + intros [([H|H] & _)|(_ & _ & H)]; [discriminate H|lia|exact H].
    + intros ->. right. split; [reflexivity|]. split; [lia|reflexivity].
    + intros [(_ & H)|(_ & H & _)]; [exact H|lia].
    + intros ->. left. split; [right; lia|reflexivity].
  - split; [intros [(_ & H)|(H & _)]; [exact H|discriminate H]|]. intros ->. left. auto.
Qed.
Lemma is_blank_iff d b : is_blank d b = true <-> Forall (fun c => c = fd_optchar d \/ c = 32%N) b.
Proof.
  unfold is_blank. set (p := fun c => _). rewrite <- (blanks_forall p) by (intro c; unfold p; lia).
  destruct (rstrip_decomp p b) as (e & E & B). split.
  - destruct (rstrip_by p b); [|discriminate]. intros _. now rewrite E.
  - intro F. now rewrite (proj2 (rstrip_nil p b) F).
Qed.
Lemma convert_nothing d x : nothing d x -> convert FO d x = Ok VNone.
Proof.
  intros (O & [->|(b & -> & F)]); cbn [convert]; rewrite O; [reflexivity|]. apply is_blank_iff in F. now rewrite F.
Qed.
Definition as_type (d : fdesc) (w : pyval) : res pyval :=
  match fd_ty d with
  | TStr => Ok (VStr (rstrip_by ws_str (conv_str FO w)))
  | TInt => do z <- conv_int FO w; Ok (VInt z)
  | TFloat => do y <- conv_float FO w; Ok (VFloat y)
  | TBytes | TData _ => do b <- conv_bytes FO w; Ok (VBytes b)
  end.
Lemma convert_plain d x w : ~ nothing d x -> plain x w -> convert FO d x = as_type d w.
Proof.
  intros N [->|(b & -> & ->)]; unfold as_type.
  - cbn [convert]. destruct w; try reflexivity. destruct (fd_optional d) eqn:O; [exfalso; apply N; split; auto|]. destruct (fd_ty d); reflexivity.
  - cbn [convert]. destruct (fd_optional d && is_blank d b) eqn:O; [|destruct (fd_ty d); reflexivity].
    apply andb_true_iff in O as (O & B). exfalso. apply N. split; [exact O|]. right. exists b. split; [reflexivity|]. now apply is_blank_iff.
Qed.
Lemma plain_ex x : exists w, plain x w.
Proof. destruct x as [w|b]; [exists w; now left|exists (VBytes b); right; eauto]. Qed.
Lemma nothing_dec d x : nothing d x \/ ~ nothing d x.
Proof.
  unfold nothing. destruct (fd_optional d); [|right; intros (E & _); discriminate E].
  destruct x as [v|b].
  - destruct v; try (right; intros (_ & [E|(b0 & E & _)]); discriminate E). left. auto.
  - destruct (is_blank d b) eqn:B.
    + left. split; [reflexivity|]. right. exists b. split; [reflexivity|]. now apply is_blank_iff.
    + right. intros (_ & [E|(b' & E & F)]); [discriminate E|]. injection E as ->. apply is_blank_iff in F. congruence.
Qed.

(** *** The model computes what is shown *)
Section Read.
Variable g : field -> list Z -> res pyval.
Definition unpacked (f : field) (k : list Z) (u : pyval) : res pyval :=
  match fd_ty (f_d f), u with TData _, VBytes b => unpack FO g fs f k b | _, _ => Ok u end.
Lemma unpacked_none f k : unpacked f k VNone = Ok VNone.
Proof. unfold unpacked. destruct (fd_ty (f_d f)); reflexivity. Qed.
Definition reads_as (f : field) (k : list Z) (x : sval FO) : res pyval := do u <- convert FO (f_d f) x; unpacked f k u.
Lemma reads_nothing f k x : nothing (f_d f) x -> reads_as f k x = Ok VNone.
Proof. intro H. unfold reads_as. rewrite convert_nothing by exact H. apply unpacked_none. Qed.
Lemma unpack_int_iff sg n b z : unpack_int FO sg n b = Ok (VInt z) <->
  (n = 3 \/ (n = 1 \/ n = 2 \/ n = 4 \/ n = 8) /\ n = Z.of_nat (List.length b))%Z /\ binary sg b z.
Proof.
  rewrite binary_iff. unfold unpack_int. destruct (n =? 3)%Z eqn:E3.
  - split; [intro H; injection H as <-; split; [left; lia|reflexivity]|]. intros (_ & ->). reflexivity.
  - destruct ((n =? 1) || (n =? 2) || (n =? 4) || (n =? 8))%Z eqn:E; [|split; [discriminate|intros ([H|(H & _)] & _); lia]].
    destruct (Z.of_nat (List.length b) =? n)%Z eqn:L; [|split; [discriminate|intros ([H|(_ & H)] & _); lia]].
    split; [intro H; injection H as <-; split; [right; lia|reflexivity]|]. intros (_ & ->). reflexivity.
Qed.
Lemma reads_typed f k x v : (forall n, fsize_of FO g fs f k = Ok n -> size_of f k n) -> reads_as f k x = Ok v -> typed f k x v.
Proof.
  intros HS H. destruct (nothing_dec (f_d f) x) as [N|N].
  - rewrite reads_nothing in H by exact N. injection H as <-. now constructor.
  - destruct (plain_ex x) as (w & P). unfold reads_as in H. rewrite (convert_plain _ _ _ N P) in H. apply bind_ok_elim in H as (u & A & U). unfold as_type in A. unfold unpacked in U.
    destruct (fd_ty (f_d f)) as [| | | |dk] eqn:T.
    + injection A as <-. injection U as <-. eapply ty_str; eauto; [now apply as_text_iff|now apply stripped_str].
    + apply bind_ok_elim in A as (z & A & E). injection E as <-. injection U as <-. eapply ty_int; eauto. now apply as_int_iff.
    + apply bind_ok_elim in A as (z & A & E). injection E as <-. injection U as <-. eapply ty_float; eauto. now apply as_float_iff.
    + apply bind_ok_elim in A as (b & A & E). injection E as <-. injection U as <-. eapply ty_bytes; eauto. now apply as_bytes_iff.
    + apply bind_ok_elim in A as (b & A & E). injection E as <-. apply as_bytes_iff in A. unfold unpack in U. rewrite T in U. destruct dk as [| | |sg|].
      * injection U as <-. eapply ty_dstr; eauto.
      * injection U as <-. eapply ty_bytes; eauto.
      * destruct (Nat.eqb (List.length b) 4) eqn:L; [|discriminate U]. injection U as <-. apply Nat.eqb_eq in L. eapply ty_dfloat; eauto.
      * apply bind_ok_elim in U as (n & SZ & U). assert (exists z, v = VInt z) as (z & ->).
        { unfold unpack_int in U. destruct (n =? 3)%Z; [injection U as <-; eauto|]. destruct (_ || _); [|discriminate U]. destruct (_ =? n)%Z; [injection U as <-; eauto|discriminate U]. }
        apply unpack_int_iff in U as (R & B). eapply ty_dint; eauto.
      * injection U as <-. eapply ty_bytes; eauto.
Qed.
Lemma get_pub_reads f k : fd_name (f_d f) <> None -> forall v, get_pub FO g fs s f k = Ok v <->
  check_index FO g fs f k = Ok tt /\ (check_condition FO g fs f k = Ok false /\ v = VNone
    \/ check_condition FO g fs f k = Ok true /\ exists x, reads_as f k x = Ok v /\
       (fd_value (f_d f) = None /\ x = stored FO s f k \/ exists e w, fd_value (f_d f) = Some e /\ eval FO g fs k e = Ok w /\ x = SVal w)).
Proof.
  intros N v. unfold get_pub, get_base. destruct (fd_name (f_d f)); [|contradiction]. destruct (check_index FO g fs f k) as [[]|]; cbn [bind]; [|split; [discriminate|intros (E & _); discriminate E]].
  destruct (check_condition FO g fs f k) as [[|]|]; cbn [bind negb].
  3: split; [discriminate|intros (_ & [(E & _)|(E & _)]); discriminate E].
  2: { fold (unpacked f k VNone). rewrite unpacked_none. split; [intro E; injection E as <-; auto|]. intros (_ & [(_ & ->)|(E & _)]); [reflexivity|discriminate E]. }
  split.
  - intro H. apply bind_ok_elim in H as (u & A & U). split; [reflexivity|]. right. split; [reflexivity|]. fold (unpacked f k u) in U.
    destruct (fd_value (f_d f)) as [e|] eqn:V.
    + destruct (eval FO g fs k e) as [w|] eqn:W; cbn [bind] in A; [|discriminate A]. exists (SVal w). split; [|right; eauto].
      unfold reads_as. destruct (convert FO (f_d f) (SVal w)); [|discriminate A]. injection A as ->. exact U.
    + exists (stored FO s f k). split; [|left; auto]. unfold reads_as. destruct (convert FO (f_d f) (stored FO s f k)); [|discriminate A]. injection A as ->. exact U.
  - intros (_ & [(E & _)|(_ & x & R & X)]); [discriminate E|]. unfold reads_as in R. apply bind_ok_elim in R as (u & C & U).
    destruct X as [(V & ->)|(e & w & V & W & ->)]; rewrite V.
    + rewrite C. exact U.
    + rewrite W. cbn [bind]. rewrite C. exact U.
Qed.
End Read.

Fixpoint go_in (g : field -> list Z -> res pyval) (neg : bool) (k : list Z) (x : pyval) (l : list expr) : res pyval :=
  match l with
  | [] => Ok (VBool neg)
  | b :: l' => do y <- eval FO g fs k b; do r <- py_eqb FO x y; if r then Ok (VBool (negb neg)) else go_in g neg k x l'
  end.
Lemma eval_in g k neg a l : eval FO g fs k (EIn neg a l) = do x <- eval FO g fs k a; go_in g neg k x l.
Proof. cbn [eval]. destruct (eval FO g fs k a) as [x|]; [|reflexivity]. cbn [bind]. induction l as [|b l IH]; [reflexivity|]. cbn [go_in]. now rewrite <- IH. Qed.
Lemma true_iff (r b : bool) (P : Prop) : (b = true <-> P) -> (r = true <-> P) <-> r = b.
Proof. intro H. destruct r, b; split; intro A; try reflexivity; try discriminate A; try tauto; exfalso; destruct H as (H1 & H2), A as (A1 & A2); intuition discriminate. Qed.
Lemma cmp_iff op m n r : is_order op -> (r = true <-> holds op m n) <-> r = cmp_Z op m n.
Proof. intros (A & B). apply true_iff. destruct op; try contradiction; cbn [cmp_Z holds]; lia. Qed.
Lemma div_iff m n q r : (m = q * n + r -> 0 <= r < n \/ n < r <= 0 -> n <> 0 /\ m / n = q)%Z.
Proof.
  intros E R. split; [lia|]. symmetry. apply Z.div_unique with r; [exact R|lia].
Qed.
Lemma half_iff p q r : (p = 2 * q + r -> (r = 0 \/ r = 1 /\ 0 <= p \/ r = -1 /\ p <= 0) -> Z.quot p 2 = q)%Z.
Proof. intros E R. destruct (Z.le_ge_cases 0 p); [symmetry; apply Z.quot_unique with r; lia|]. replace p with (- (- p))%Z by lia. rewrite Z.quot_opp_l by lia.
  enough (X : Z.quot (- p) 2 = (- q)%Z) by lia. symmetry. apply Z.quot_unique with (- r)%Z; lia. Qed.
Lemma half_ex p : exists r, (p = 2 * Z.quot p 2 + r /\ (r = 0 \/ r = 1 /\ 0 <= p \/ r = -1 /\ p <= 0))%Z.
Proof.
  exists (Z.rem p 2). assert (E := Z.quot_rem p 2 ltac:(lia)). split; [exact E|]. destruct (Z.le_ge_cases 0 p).
  - assert (B := Z.rem_bound_pos p 2 ltac:(lia) ltac:(lia)). lia.
  - assert (B := Z.rem_bound_pos_neg p 2 ltac:(lia) ltac:(lia)). lia.
Qed.
Lemma snoc_last {A} (a : list A) x d : last (a ++ [x]) d = x /\ removelast (a ++ [x]) = a.
Proof. split; [apply last_last|apply removelast_last]. Qed.
Lemma index_iff g f k : check_index FO g fs f k = Ok tt <->
  f_loops f = [] \/ exists outer sh lead i n, f_loops f = outer ++ [sh] /\ k = lead ++ [i] /\ List.length lead = List.length outer
    /\ eval_shape FO g fs lead sh = Ok n /\ (0 <= i < n)%Z.
Proof.
  unfold check_index, depth. destruct (f_loops f) as [|sh0 shs] eqn:L; [tauto|].
  assert (NE : sh0 :: shs <> []) by discriminate. destruct (exists_last NE) as (outer & sh & EL).
  assert (LS : last shs sh0 = sh).
  { assert (X := f_equal (fun l => last l sh0) EL). cbv beta in X. rewrite (proj1 (snoc_last outer sh sh0)) in X. rewrite <- X. destruct shs; reflexivity. }
  rewrite LS, EL, app_length. cbn [List.length]. split.
  - destruct (negb _) eqn:E; [discriminate|]. apply negb_false_iff, Nat.eqb_eq in E. destruct k as [|i lead] using rev_ind; [cbn in E; lia|]. clear IHlead.
    destruct (snoc_last lead i 0%Z) as (-> & ->). destruct (i <? 0)%Z eqn:I; [discriminate|]. intro H. apply bind_ok_elim in H as (n & HN & H).
    destruct (n <=? i)%Z eqn:J; [discriminate H|]. right. rewrite app_length in E. cbn in E. exists outer, sh, lead, i, n. repeat split; auto; lia.
  - intros [X|(outer' & sh' & lead & i & n & X & -> & LL & HN & R)]; [destruct outer; discriminate X|]. apply app_inj_tail in X as (<- & <-).
    rewrite app_length, LL. cbn [List.length]. rewrite Nat.eqb_refl. cbn [negb]. destruct (snoc_last lead i 0%Z) as (-> & ->).
    replace (i <? 0)%Z with false by lia. rewrite HN. cbn [bind]. now replace (n <=? i)%Z with false by lia.
Qed.

(** Any reading that agrees with itself computes what is shown. *)
Lemma meaning_sound g : (forall nm f, lookup fs nm = Some f -> forall k, g f k = get_pub FO g fs s f k) ->
  (forall f k v, shows f k v -> fd_name (f_d f) <> None -> get_pub FO g fs s f k = Ok v)
  /\ (forall f k x v, typed f k x v -> reads_as g f k x = Ok v)
  /\ (forall f k b, condition f k b -> check_condition FO g fs f k = Ok b)
  /\ (forall f k n, size_of f k n -> fsize_of FO g fs f k = Ok n)
  /\ (forall f k, in_range_of f k -> check_index FO g fs f k = Ok tt)
  /\ (forall k e n, count k e n -> eval_shape FO g fs k e = Ok n)
  /\ (forall k e v, means k e v -> eval FO g fs k e = Ok v)
  /\ (forall k x l r, among k x l r -> forall neg, go_in g neg k x l = Ok (VBool (xorb neg r))).
Proof.
  intro HG.
  assert (LN : forall nm f, lookup fs nm = Some f -> fd_name (f_d f) <> None).
  { intros nm f L. apply refers_iff in L as (b & a & _ & E & _). congruence. }
  apply meaning_ind.
  - intros f k _ H1 _ H2 N. apply get_pub_reads; auto.
  - intros f k e w v _ H1 _ H2 HV _ H3 _ H4 N. apply get_pub_reads; [exact N|]. split; [exact H1|]. right. split; [exact H2|]. exists (SVal w). split; [exact H4|]. right. eauto.
  - intros f k x v _ H1 _ H2 HV H3 _ H4 N. apply get_pub_reads; [exact N|]. split; [exact H1|]. right. split; [exact H2|]. exists x. split; [exact H4|]. left. split; [exact HV|]. now apply holding_iff.
  - intros f k x H. now apply reads_nothing.
  - intros f k x w t r N P T A S. unfold reads_as. rewrite (convert_plain _ _ _ N P). unfold as_type, unpacked. rewrite T. apply as_text_iff in A. apply stripped_str in S. subst. reflexivity.
  - intros f k x w z N P T A. unfold reads_as. rewrite (convert_plain _ _ _ N P). unfold as_type, unpacked. rewrite T. apply as_int_iff in A. rewrite A. reflexivity.
  - intros f k x w y N P T A. unfold reads_as. rewrite (convert_plain _ _ _ N P). unfold as_type, unpacked. rewrite T. apply as_float_iff in A. rewrite A. reflexivity.
  - intros f k x w b N P T A. unfold reads_as. rewrite (convert_plain _ _ _ N P). unfold as_type, unpacked, unpack. apply as_bytes_iff in A. destruct T as [T|[T|T]]; rewrite T, A; reflexivity.
  - intros f k x w b N P T A. unfold reads_as. rewrite (convert_plain _ _ _ N P). unfold as_type, unpacked, unpack. rewrite T. apply as_bytes_iff in A. rewrite A. reflexivity.
  - intros f k x w b N P T A L. unfold reads_as. rewrite (convert_plain _ _ _ N P). unfold as_type, unpacked, unpack. rewrite T. apply as_bytes_iff in A. rewrite A. cbn [bind]. rewrite L. reflexivity.
  - intros f k x w b sg n z N P T A _ S R B. unfold reads_as. rewrite (convert_plain _ _ _ N P). unfold as_type, unpacked, unpack. rewrite T. apply as_bytes_iff in A. rewrite A. cbn [bind].
    rewrite S. cbn [bind]. apply unpack_int_iff. auto.
  - intros f k E. unfold check_condition. now rewrite E.
  - intros f k e v E _ H F. unfold check_condition. rewrite E, H. cbn [bind]. apply not_falsy_iff in F. now rewrite F.
  - intros f k e v E _ H F. unfold check_condition. rewrite E, H. cbn [bind]. apply falsy_iff in F. now rewrite F.
  - intros f k n m E H. unfold fsize_of. rewrite E. cbn [bind]. destruct H as [(-> & ->)|(N & ->)]; [reflexivity|]. now replace (n =? 0)%Z with false by lia.
  - intros f k e v n m E _ HV HN H. unfold fsize_of. rewrite E, HV. cbn [bind]. apply number_iff in HN. rewrite HN. cbn [bind].
    destruct H as [(-> & ->)|(N & ->)]; [reflexivity|]. now replace (n =? 0)%Z with false by lia.
  - intros f E. apply index_iff. now left.
  - intros f outer sh lead i n E L _ H R. apply index_iff. right. exists outer, sh, lead, i, n. auto.
  - intros k e _ H. unfold eval_shape. rewrite H. reflexivity.
  - intros k e v n _ H HN. unfold eval_shape. rewrite H. cbn [bind]. apply number_iff in HN. destruct v; try exact HN. discriminate HN.
  - reflexivity.
  - reflexivity.
  - intros k nm f v R L _ H. apply refers_iff in R. cbn [eval]. unfold eval_ref, depth. rewrite R, L. cbn [List.length]. rewrite (HG nm f R). apply H. now apply (LN nm).
  - intros k nm f m lead rest v R L -> LL M _ H. apply refers_iff in R. cbn [eval]. unfold eval_ref, depth. rewrite R. destruct m as [|m]; [lia|].
    destruct (f_loops f) as [|sh shs]; [contradiction|]. cbn [List.length]. replace (Nat.ltb (List.length (lead ++ rest)) (S m)) with false by (rewrite app_length; lia).
    rewrite <- LL, firstn_app, Nat.sub_diag, firstn_all. cbn [firstn]. rewrite app_nil_r, (HG nm f R). apply H. now apply (LN nm).
  - intros k a b x y m n _ A _ B X Y. cbn [eval]. rewrite A, B. unfold binop_Z. cbn [bind]. apply number_iff in X, Y. rewrite X, Y. reflexivity.
  - intros k a b x y m n _ A _ B X Y. cbn [eval]. rewrite A, B. unfold binop_Z. cbn [bind]. apply number_iff in X, Y. rewrite X, Y. reflexivity.
  - intros k a b x y m n _ A _ B X Y. cbn [eval]. rewrite A, B. unfold binop_Z. cbn [bind]. apply number_iff in X, Y. rewrite X, Y. reflexivity.
  - intros k a b x y m n q r _ A _ B X Y E R. cbn [eval]. rewrite A, B. unfold binop_Z. cbn [bind]. apply number_iff in X, Y. rewrite X, Y. cbn [bind].
    destruct (div_iff m n q r E R) as (N & <-). now replace (n =? 0)%Z with false by lia.
  - intros k a b x y m n q r _ A _ B X Y E R. cbn [eval]. rewrite A, B. unfold binop_Z. cbn [bind]. apply number_iff in X, Y. rewrite X, Y. cbn [bind].
    now rewrite (half_iff _ _ _ E R).
  - intros k a b x y m n z _ A _ B X Y T. cbn [eval]. rewrite A, B. unfold binop_Z. cbn [bind]. apply number_iff in X, Y. rewrite X, Y. cbn [bind].
    do 2 f_equal. apply Z.bits_inj'. intros i I. now rewrite Z.land_spec, T.
  - intros k a b x y r _ A _ B C E. cbn [eval]. rewrite A, B. cbn [bind eval_cmp]. now rewrite (proj2 (same_iff x y r) (conj C E)).
  - intros k a b x y r _ A _ B C E. cbn [eval]. rewrite A, B. cbn [bind eval_cmp]. rewrite (proj2 (same_iff x y (negb r))); [cbn [bind]; now rewrite negb_involutive|].
    split; [exact C|]. destruct (py_eqb FO x y) as [r'|e] eqn:Q.
    + apply same_iff in Q as (_ & Q). destruct r, r'; cbn [negb]; intuition congruence.
    + exfalso. clear -C Q. destruct C as (C1 & C2). unfold is_float in *. destruct x, y; cbn in Q; try discriminate Q; eauto.
  - intros k op a b x y m n r O _ A _ B X Y E. cbn [eval]. rewrite A, B. cbn [bind]. apply number_iff in X, Y. apply cmp_iff in E; [|exact O]. subst r.
    unfold eval_cmp. rewrite X, Y. destruct O as (O1 & O2). destruct op; try contradiction; reflexivity.
  - intros k a l x r _ A _ H. rewrite eval_in, A. cbn [bind]. rewrite H. now destruct r.
  - intros k a l x r _ A _ H. rewrite eval_in, A. cbn [bind]. rewrite H. now destruct r.
  - intros k a b x _ A F. cbn [eval]. rewrite A. cbn [bind]. apply falsy_iff in F. now rewrite F.
  - intros k a b x v _ A F _ B. cbn [eval]. rewrite A. cbn [bind]. apply not_falsy_iff in F. now rewrite F.
  - intros k c a b x v _ C F _ A. cbn [eval]. rewrite C. cbn [bind]. apply not_falsy_iff in F. now rewrite F.
  - intros k c a b x v _ C F _ B. cbn [eval]. rewrite C. cbn [bind]. apply falsy_iff in F. now rewrite F.
  - intros k a x z _ A I. cbn [eval]. rewrite A. cbn [bind]. apply as_int_iff in I. now rewrite I.
  - intros k a t r _ A S. cbn [eval]. rewrite A. cbn [bind]. apply stripped_str in S. now subst.
  - intros k a t r _ A S. cbn [eval]. rewrite A. cbn [bind]. apply stripped_byte in S. now subst.
  - intros k x neg. cbn [go_in]. now destruct neg.
  - intros k x b l y _ B C E neg. cbn [go_in]. rewrite B. cbn [bind]. rewrite (proj2 (same_iff x y true)); [cbn [bind]; now destruct neg|]. split; [exact C|]. tauto.
  - intros k x b l y r _ B C E _ H neg. cbn [go_in]. rewrite B. cbn [bind]. rewrite (proj2 (same_iff x y false)); [cbn [bind]; apply H|]. split; [exact C|].
    split; [discriminate|contradiction].
Qed.

(** A reading shows nothing else, if what it reads for that is shown. *)
Section Complete.
Variable g : field -> list Z -> res pyval.
Definition refs_shown (rs : list (string * nat)) : Prop :=
  forall r f, In r rs -> lookup fs (fst r) = Some f -> forall k v, (f_loops f = [] -> k = []) -> g f k = Ok v -> shows f k v.
Lemma refs_shown_app a b : refs_shown (a ++ b) <-> refs_shown a /\ refs_shown b.
Proof.
  unfold refs_shown. split.
  - intro H. split; intros r f Hr; apply H; apply in_or_app; auto.
  - intros [H1 H2] r f Hr. apply in_app_or in Hr as [Hr|Hr]; [now apply H1|now apply H2].
Qed.
Lemma eval_means e : forall k v, refs_shown (expr_refs e) -> eval FO g fs k e = Ok v -> means k e v.
Proof.
  induction e using expr_ind'; intros k v HR HE; try rewrite eval_in in HE; cbn [expr_refs eval] in HR, HE.
  - injection HE as <-. constructor.
  - injection HE as <-. constructor.
  - unfold eval_ref, depth in HE. destruct (lookup fs nm) as [f|] eqn:L; [|discriminate HE]. assert (R := proj2 (refers_iff nm f) L).
    assert (SH := fun k' => HR (nm, m) f (or_introl eq_refl) L k' v). destruct m as [|m]; destruct (f_loops f) as [|sh shs] eqn:LF; cbn [List.length] in HE; try discriminate HE.
    + apply (me_scalar k nm f v R LF). apply SH; auto.
    + destruct (Nat.ltb (List.length k) (S m)) eqn:LT; [discriminate HE|]. apply Nat.ltb_ge in LT.
      apply (me_looped k nm f (S m) (firstn (S m) k) (skipn (S m) k) v R); [congruence|now rewrite firstn_skipn|rewrite firstn_length; lia|lia|].
      apply SH; [discriminate|exact HE].
  - apply refs_shown_app in HR as (R1 & R2). unfold binop_Z in HE. apply bind_ok_elim in HE as (x & A & HE). apply bind_ok_elim in HE as (y & B & HE).
    apply bind_ok_elim in HE as (m & X & HE). apply bind_ok_elim in HE as (n & Y & HE). injection HE as <-. apply number_iff in X, Y. eapply me_add; eauto.
  - apply refs_shown_app in HR as (R1 & R2). unfold binop_Z in HE. apply bind_ok_elim in HE as (x & A & HE). apply bind_ok_elim in HE as (y & B & HE).
    apply bind_ok_elim in HE as (m & X & HE). apply bind_ok_elim in HE as (n & Y & HE). injection HE as <-. apply number_iff in X, Y. eapply me_sub; eauto.
  - apply refs_shown_app in HR as (R1 & R2). unfold binop_Z in HE. apply bind_ok_elim in HE as (x & A & HE). apply bind_ok_elim in HE as (y & B & HE).
    apply bind_ok_elim in HE as (m & X & HE). apply bind_ok_elim in HE as (n & Y & HE). injection HE as <-. apply number_iff in X, Y. eapply me_mul; eauto.
  - apply refs_shown_app in HR as (R1 & R2). unfold binop_Z in HE. apply bind_ok_elim in HE as (x & A & HE). apply bind_ok_elim in HE as (y & B & HE).
    apply bind_ok_elim in HE as (m & X & HE). apply bind_ok_elim in HE as (n & Y & HE). destruct (n =? 0)%Z eqn:N; [discriminate HE|]. injection HE as <-. apply number_iff in X, Y.
    apply (me_div k e1 e2 x y m n (m / n) (m mod n)); auto.
    + assert (D := Z.div_mod m n ltac:(lia)). lia.
    + destruct (Z.lt_ge_cases 0 n); [left; apply Z.mod_pos_bound; lia|right]. apply Z.mod_neg_bound. lia.
  - apply refs_shown_app in HR as (R1 & R2). unfold binop_Z in HE. apply bind_ok_elim in HE as (x & A & HE). apply bind_ok_elim in HE as (y & B & HE).
    apply bind_ok_elim in HE as (m & X & HE). apply bind_ok_elim in HE as (n & Y & HE). injection HE as <-. apply number_iff in X, Y.
    destruct (half_ex (m * n)) as (r & E & R). apply (me_half k e1 e2 x y m n _ r); auto.
  - apply refs_shown_app in HR as (R1 & R2). unfold binop_Z in HE. apply bind_ok_elim in HE as (x & A & HE). apply bind_ok_elim in HE as (y & B & HE).
    apply bind_ok_elim in HE as (m & X & HE). apply bind_ok_elim in HE as (n & Y & HE). injection HE as <-. apply number_iff in X, Y.
    apply (me_and_bits k e1 e2 x y m n); auto. intros i _. apply Z.land_spec.
  - apply refs_shown_app in HR as (R1 & R2). apply bind_ok_elim in HE as (x & A & HE). apply bind_ok_elim in HE as (y & B & HE). specialize (IHe1 _ _ R1 A). specialize (IHe2 _ _ R2 B).
    assert (O : op = CEq \/ op = CNe \/ is_order op /\ eval_cmp FO op x y = do m <- as_Z FO x; do n <- as_Z FO y; Ok (VBool (cmp_Z op m n))).
    { destruct op; auto; right; right; (split; [split; discriminate|reflexivity]). }
    destruct O as [->|[->|(O & EO)]].
    + cbn [eval_cmp] in HE. apply bind_ok_elim in HE as (r & Q & HE). injection HE as <-. apply same_iff in Q as (C & Q). eapply me_eq; eauto.
    + cbn [eval_cmp] in HE. apply bind_ok_elim in HE as (r & Q & HE). injection HE as <-. apply same_iff in Q as (C & Q). apply (me_ne k e1 e2 x y); auto.
      rewrite <- Q. destruct r; cbn [negb]; intuition congruence.
    + rewrite EO in HE. apply bind_ok_elim in HE as (m & X & HE). apply bind_ok_elim in HE as (n & Y & HE). injection HE as <-. apply number_iff in X, Y.
      apply (me_order k op e1 e2 x y m n); auto. now apply cmp_iff.
  - apply refs_shown_app in HR as (R1 & R2). apply bind_ok_elim in HE as (x & A & HE). specialize (IHe _ _ R1 A).
    assert (AM : exists r, v = VBool (xorb neg r) /\ among k x l r).
    { clear A. induction l as [|b l IHl].
      - cbn [go_in] in HE. injection HE as <-. exists false. split; [now destruct neg|constructor].
      - cbn [flat_map] in R2. apply refs_shown_app in R2 as (R2 & R3). inversion_clear H as [|? ? Hb Hl]. cbn [go_in] in HE.
        apply bind_ok_elim in HE as (y & B & HE). apply bind_ok_elim in HE as (q & Q & HE). apply same_iff in Q as (C & Q). specialize (Hb _ _ R2 B). destruct q.
        + injection HE as <-. exists true. split; [now destruct neg|]. apply (am_hit k x b l y); auto. now apply Q.
        + destruct (IHl Hl R3 HE) as (r & -> & AM). exists r. split; [reflexivity|]. apply (am_skip k x b l y r); auto. intro S. apply Q in S. discriminate S. }
    destruct AM as (r & -> & AM). destruct neg; [apply (me_not_in k e l x r); auto|]. replace (xorb false r) with r by now destruct r. apply (me_in k e l x r); auto.
  - apply refs_shown_app in HR as (R1 & R2). apply bind_ok_elim in HE as (x & A & HE). destruct (truthy FO x) eqn:T.
    + apply not_falsy_iff in T. apply (me_and k e1 e2 x v); auto.
    + injection HE as <-. apply falsy_iff in T. apply me_and_no; auto.
  - rewrite !refs_shown_app in HR. destruct HR as (R1 & R2 & R3). apply bind_ok_elim in HE as (x & A & HE). destruct (truthy FO x) eqn:T.
    + apply not_falsy_iff in T. apply (me_if k e1 e2 e3 x v); auto.
    + apply falsy_iff in T. apply (me_else k e1 e2 e3 x v); auto.
  - apply bind_ok_elim in HE as (x & A & HE). apply bind_ok_elim in HE as (z & I & HE). injection HE as <-. apply as_int_iff in I. apply (me_int_of k e x z); auto.
  - apply bind_ok_elim in HE as (x & A & HE). destruct x; try discriminate HE; injection HE as <-.
    + eapply me_rstrip_str; [apply IHe; eauto|now apply stripped_str].
    + eapply me_rstrip_bytes; [apply IHe; eauto|now apply stripped_byte].
Qed.
Lemma condition_shown f k b : refs_shown (opt_refs (fd_cond (f_d f))) -> check_condition FO g fs f k = Ok b -> condition f k b.
Proof.
  intros HR H. unfold check_condition in H. destruct (fd_cond (f_d f)) as [e|] eqn:E; [|injection H as <-; now apply co_none].
  apply bind_ok_elim in H as (v & HV & H). injection H as <-. apply eval_means in HV; [|exact HR]. destruct (truthy FO v) eqn:T.
  - apply not_falsy_iff in T. eapply co_true; eauto.
  - apply falsy_iff in T. eapply co_false; eauto.
Qed.
Lemma size_shown f k n : refs_shown (size_refs (fd_size (f_d f))) -> fsize_of FO g fs f k = Ok n -> size_of f k n.
Proof.
  intros HR H. unfold fsize_of in H. destruct (fd_size (f_d f)) as [z|e] eqn:E.
  - cbn [bind] in H. injection H as <-. apply (sz_int f k z); [exact E|]. destruct (z =? 0)%Z eqn:Q; [left|right]; lia.
  - apply bind_ok_elim in H as (z & H & Q). apply bind_ok_elim in H as (v & HV & Z0). injection Q as <-. apply number_iff in Z0.
    apply (sz_expr f k e v z); auto; [apply eval_means; auto|]. destruct (z =? 0)%Z eqn:Q; [left|right]; lia.
Qed.
Lemma count_shown k e n : refs_shown (expr_refs e) -> eval_shape FO g fs k e = Ok n -> count k e n.
Proof.
  intros HR H. unfold eval_shape in H. apply bind_ok_elim in H as (v & HV & H). apply eval_means in HV; [|exact HR].
  destruct v; [injection H as <-; now apply ct_none|..]; (eapply ct_number; [exact HV|now apply number_iff]).
Qed.
Lemma index_shown f k : refs_shown (shape_refs f) -> (f_loops f = [] -> k = []) -> check_index FO g fs f k = Ok tt -> in_range_of f k.
Proof.
  intros HR HK H. apply index_iff in H as [H|(outer & sh & lead & i & n & L & -> & LL & HN & R)].
  - rewrite HK by exact H. now apply ir_scalar.
  - apply (ir_loop f outer sh lead i n); auto. apply count_shown; [|exact HN]. unfold shape_refs in HR. rewrite L in HR.
    destruct (outer ++ [sh]) as [|sh0 shs] eqn:E; [destruct outer; discriminate E|].
    assert (LS : last shs sh0 = sh).
    { assert (X := f_equal (fun l => last l sh0) E). cbv beta in X. rewrite (proj1 (snoc_last outer sh sh0)) in X. rewrite X. destruct shs; reflexivity. }
    now rewrite LS in HR.
Qed.
Lemma pub_shown f k v : fd_name (f_d f) <> None -> refs_shown (field_refs f) -> (f_loops f = [] -> k = []) -> get_pub FO g fs s f k = Ok v -> shows f k v.
Proof.
  intros N HR HK H. unfold field_refs, own_refs in HR. rewrite !refs_shown_app in HR. destruct HR as (HO & R4).
  assert (R : refs_shown (opt_refs (fd_cond (f_d f))) /\ refs_shown (size_refs (fd_size (f_d f))) /\ refs_shown (opt_refs (fd_value (f_d f)))) by tauto.
  destruct R as (R1 & R2 & R3). clear HO. apply (get_pub_reads g f k N) in H as (I & H). apply index_shown in I; auto.
  destruct H as [(C & ->)|(C & x & X & H)]; apply condition_shown in C; auto; [now apply sh_absent|].
  apply reads_typed in X; [|intros n; now apply size_shown].
  destruct H as [(V & E)|(e & w & V & W & ->)].
  - apply holding_iff in E. eapply sh_held; eauto.
  - rewrite V in R3. apply eval_means in W; [|exact R3]. eapply sh_computed; eauto.
Qed.
End Complete.
End Meaning.

Section Tables.
Variable FO : FloatOps.
Variable rows : list row.
Variable s : state FO.
Notation fs := (mk_fs rows).
Hypothesis Hwf : wf_rows rows = true.

Lemma G_again nm f : lookup fs nm = Some f -> forall k, G FO fs s f k = get_pub FO (G FO fs s) fs s f k.
Proof.
  intros L k. assert (I : In f (fs_fields fs)) by (eapply lookup_in; eauto). change (get_pub FO (G FO fs s) fs s f k) with (getf FO (S (fuel fs)) fs s f k).
  assert (B := id_lt_fuel rows f I). apply (getf_fuel rows FO s Hwf); auto.
Qed.
Lemma G_shown n : forall nm f, (f_id f < n)%nat -> lookup fs nm = Some f -> forall k v, (f_loops f = [] -> k = []) -> G FO fs s f k = Ok v -> shows FO fs s f k v.
Proof.
  induction n as [|n IH]; intros nm f LT L k v HK H; [lia|]. rewrite (G_again nm f L) in H.
  assert (I : In f (fs_fields fs)) by (eapply lookup_in; eauto).
  apply (pub_shown FO fs s (G FO fs s)); auto.
  - apply refers_iff in L as (b & a & _ & E & _). congruence.
  - intros r f' HR L' k' v' HK' H'. destruct (wf_reads_lt rows f f' Hwf I) as (LT' & _); [exists r; auto|]. apply (IH (fst r)); auto. lia.
Qed.
Lemma all_shown rs : refs_shown FO fs s (G FO fs s) rs.
Proof. intros r f _ L k v HK H. apply (G_shown (S (f_id f)) (fst r)); auto. Qed.

(** Evaluating an expression gives its meaning, and gives a value only if it has one. *)
Theorem C51_means k e v : eval FO (G FO fs s) fs k e = Ok v <-> means FO fs s k e v.
Proof.
  split; [apply eval_means, all_shown|]. apply (meaning_sound FO fs s (G FO fs s)). exact G_again.
Qed.
(** So conditions, sizes, loop counts and indices mean what the tables say. *)
Theorem C51_uses f k :
  (forall b, cond_is FO fs s f k b <-> condition FO fs s f k b)
  /\ (forall n, size_is FO fs s f k n <-> size_of FO fs s f k n)
  /\ (forall e n, count_is FO fs s k e n <-> count FO fs s k e n).
Proof.
  destruct (meaning_sound FO fs s (G FO fs s) G_again) as (_ & _ & S1 & S2 & _ & S3 & _). split; [|split].
  - intro b. rewrite cond_is_check. split; [|apply S1]. apply condition_shown, all_shown.
  - intro n. rewrite size_is_fsize. split; [|apply S2]. apply size_shown, all_shown.
  - intros e n. rewrite count_is_shape. split; [|apply S3]. apply count_shown, all_shown.
Qed.
(** Reading a name gives what the field it stands for shows. *)
Theorem C52_shows nm k v : get FO fs s nm k = Ok v <-> exists f, refers fs nm f /\ shows FO fs s f k v.
Proof.
  unfold get. split.
  - destruct (lookup fs nm) as [f|] eqn:L; [|discriminate]. destruct (key_shape_ok f k) eqn:K; [|discriminate]. intro H. exists f. split; [now apply refers_iff|].
    unfold fget in H. rewrite <- (G_again nm f L) in H. apply (G_shown (S (f_id f)) nm); auto. intro E. unfold key_shape_ok, depth in K. rewrite E in K. cbn in K. destruct k; [reflexivity|discriminate K].
  - intros (f & R & H). assert (L := proj1 (refers_iff fs nm f) R). rewrite L.
    assert (K : key_shape_ok f k = true).
    { assert (I : in_range_of FO fs s f k) by (destruct H; assumption). unfold key_shape_ok, depth. destruct I as [f E|f outer sh lead i n E _ _ _]; rewrite E; [reflexivity|].
      rewrite app_length. destruct (List.length outer + List.length [sh])%nat eqn:X; [cbn in X; lia|reflexivity]. }
    rewrite K. unfold fget. apply (meaning_sound FO fs s (G FO fs s) G_again); auto. destruct R as (b & a & _ & E & _). congruence.
Qed.
(** Each field shows at most one value. *)
Theorem C52_one nm f k v w : refers fs nm f -> shows FO fs s f k v -> shows FO fs s f k w -> v = w.
Proof.
  intros R A B. assert (X : get FO fs s nm k = Ok v) by (apply C52_shows; eauto). assert (Y : get FO fs s nm k = Ok w) by (apply C52_shows; eauto). congruence.
Qed.
End Tables.

(** A count, a text and a loop over the count with a value in it. *)
Definition expr_rows : list row :=
  [RField (fdesc0 (Some "n"%string) (SzInt 3) TInt); RField (fdesc0 (Some "t"%string) (SzInt 4) TStr);
   RLoop (EFld "n" 0) [RField (fdesc0 (Some "x"%string) (SzInt 2) TInt)]].
Definition expr_state FO : state FO :=
  set_val FO (set_val FO (set_val FO (init_state FO) 0 [] (SVal (VInt 3))) 1 [] (SLit (str "AB  "))) 2 [1%Z] (SVal (VStr (str " -7"))).
Example ex_c51 FO : wf_rows expr_rows = true
  /\ means FO (mk_fs expr_rows) (expr_state FO) [1%Z] (EFloorDiv (EFld "x" 1) (EInt 2)) (VInt (-4))
  /\ means FO (mk_fs expr_rows) (expr_state FO) [] (EHalfMul (EFld "n" 0) (EAdd (EFld "n" 0) (EInt 1))) (VInt 6)
  /\ means FO (mk_fs expr_rows) (expr_state FO) [] (EIn false (EFld "t" 0) [EStr (str "A"); EStr (str "AB")]) (VBool true)
  /\ means FO (mk_fs expr_rows) (expr_state FO) [] (EIf (EAnd (EFld "n" 0) (ECmp CEq (EFld "t" 0) (EStr (str "B")))) (EInt 1) (EIntOf (EStr (str "12")))) (VInt 12)
  /\ means FO (mk_fs expr_rows) (expr_state FO) [2%Z] (EBitAnd (EInt 12) (EAdd (EFld "x" 1) (EInt 10))) (VInt 8)
  /\ ~ (exists v, means FO (mk_fs expr_rows) (expr_state FO) [3%Z] (EFld "x" 1) v).
Proof.
  assert (W : wf_rows expr_rows = true) by (vm_compute; reflexivity). split; [exact W|].
  do 5 (split; [apply C51_means; [exact W|vm_compute; reflexivity]|]). intros (v & H). apply C51_means in H; [|exact W]. vm_compute in H. discriminate H.
Qed.
Example ex_c52 FO : (exists f, refers (mk_fs expr_rows) "x" f /\ shows FO (mk_fs expr_rows) (expr_state FO) f [1%Z] (VInt (-7)))
  /\ (exists f, refers (mk_fs expr_rows) "x" f /\ shows FO (mk_fs expr_rows) (expr_state FO) f [0%Z] (VInt 0))
  /\ (exists f, refers (mk_fs expr_rows) "t" f /\ shows FO (mk_fs expr_rows) (expr_state FO) f [] (VStr (str "AB"))).
Proof.
  assert (W : wf_rows expr_rows = true) by (vm_compute; reflexivity). repeat split; apply C52_shows; auto; vm_compute; reflexivity.
Qed.

Print Assumptions C16_accepts.
Print Assumptions C51_means.
Print Assumptions C51_uses.
Print Assumptions C52_shows.
Print Assumptions C52_one.
