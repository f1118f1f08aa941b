(* ProofPy.v - lemmas for the Python sequence protocol *)
From Verif Require Import Base BaseFacts ModelFloat ModelKey ModelGeom ModelPoint ModelPoints ModelPy SpecPy SpecPoints.
Open Scope Z_scope.

Definition step_of (step : option Z) : Z := match step with Some k => k | None => 1 end.

Lemma steps_pos i j k m : 0 < k -> 0 <= m -> (m < (if i <? j then (j - i - 1) / k + 1 else 0) <-> i + m * k < j).
Proof.
  intros K M. destruct (Z.ltb_spec i j).
  - assert (D := Z.div_mod (j - i - 1) k ltac:(lia)). assert (B := Z.mod_pos_bound (j - i - 1) k K). set (q := (j - i - 1) / k) in *. split; intros L; nia.
  - split; intros L; [lia|nia].
Qed.
Lemma steps_neg i j k m : k < 0 -> 0 <= m -> (m < (if j <? i then (i - j - 1) / (- k) + 1 else 0) <-> j < i + m * k).
Proof.
  intros K M. destruct (Z.ltb_spec j i).
  - assert (D := Z.div_mod (i - j - 1) (-k) ltac:(lia)). assert (B := Z.mod_pos_bound (i - j - 1) (-k) ltac:(lia)). set (q := (i - j - 1) / (-k)) in *. split; intros L; nia.
  - split; intros L; [lia|nia].
Qed.

Lemma bound_eq n k v : 0 <= n -> k <> 0 -> slice_bound n k v = (if 0 <? k then Z.max 0 (Z.min n (position n v)) else Z.max (-1) (Z.min (n - 1) (position n v))).
Proof.
  intros N K. unfold slice_bound, position. destruct (Z.ltb_spec v 0), (Z.ltb_spec 0 k), (Z.ltb_spec k 0); try lia;
  repeat match goal with |- context [if ?a <? ?b then _ else _] => destruct (Z.ltb_spec a b) | |- context [if ?a <=? ?b then _ else _] => destruct (Z.leb_spec a b) end; lia.
Qed.

Lemma compute_ok n start stop step : 0 <= n < 2 ^ 63 -> nonzero step -> ssize start -> ssize stop -> ssize step ->
  exists len, slice_compute n start stop step = Ok (to_u 64 (taken_at n start step 0), to_u 64 (step_of step), len) /\ 0 <= len /\
    (forall m, 0 <= m -> (m < len <-> taken n start stop step m)) /\ (forall m, taken n start stop step m -> 0 <= taken_at n start step m < n).
Proof.
  intros N NZ S1 S2 S3. unfold slice_compute, taken, taken_at. fold (step_of step). set (k := step_of step).
  assert (K : k <> 0). { unfold k, step_of, nonzero in *. destruct step as [z|]; [|lia]. intros ->. now apply NZ. }
  destruct (Z.eqb_spec k 0) as [|_]; [contradiction|].
  assert (EI : slice_bound n k (match start with Some v => v | None => if k <? 0 then SSIZE_MAX else 0 end) = slice_first n k start).
  { rewrite bound_eq by lia. unfold slice_first. destruct start as [v|]; [reflexivity|]. unfold position, SSIZE_MAX. destruct (Z.ltb_spec 0 k), (Z.ltb_spec k 0); try lia.
    - change (0 <? 0) with false. cbv iota. lia.
    - change (2 ^ 63 - 1 <? 0) with false. cbv iota. lia. }
  assert (EJ : slice_bound n k (match stop with Some v => v | None => if k <? 0 then SSIZE_MIN else SSIZE_MAX end) = slice_stop n k stop).
  { rewrite bound_eq by lia. unfold slice_stop. destruct stop as [v|]; [reflexivity|]. unfold position, SSIZE_MAX, SSIZE_MIN. destruct (Z.ltb_spec 0 k), (Z.ltb_spec k 0); try lia.
    - change (2 ^ 63 - 1 <? 0) with false. cbv iota. lia.
    - change (- 2 ^ 63 <? 0) with true. cbv iota. lia. }
  rewrite EI, EJ. set (i := slice_first n k start). set (j := slice_stop n k stop).
  assert (BI : (0 < k -> 0 <= i <= n) /\ (k < 0 -> -1 <= i <= n - 1)). { subst i. unfold slice_first. destruct (Z.ltb_spec 0 k), start; split; intros; lia. }
  assert (BJ : (0 < k -> 0 <= j <= n) /\ (k < 0 -> -1 <= j <= n - 1)). { subst j. unfold slice_stop. destruct (Z.ltb_spec 0 k), stop; split; intros; lia. }
  replace (i + 0 * k) with i by lia. clearbody i j. clearbody k.
  assert (L0 : 0 <= (if k <? 0 then if j <? i then (i - j - 1) / (- k) + 1 else 0 else if i <? j then (j - i - 1) / k + 1 else 0)).
  { destruct (Z.ltb_spec k 0), (Z.ltb_spec j i), (Z.ltb_spec i j); try lia; [assert (0 <= (i - j - 1) / (- k)) by (apply Z.div_pos; lia)|assert (0 <= (j - i - 1) / k) by (apply Z.div_pos; lia)]; lia. }
  eexists. split; [reflexivity|]. split; [exact L0|]. split.
  - intros m M. destruct (Z.ltb_spec k 0) as [KN|KP].
    + rewrite steps_neg by lia. split; [intros L; split; [lia|split; intros; [lia|exact L]]|intros (_ & _ & L); now apply L].
    + rewrite steps_pos by lia. split; [intros L; split; [lia|split; intros; [exact L|lia]]|intros (_ & L & _); apply L; lia].
  - intros m (M & TP & TN). destruct (Z.ltb_spec k 0) as [KN|KP].
    + specialize (TN KN). destruct BI as [_ BI], BJ as [_ BJ]. specialize (BI KN). specialize (BJ KN). nia.
    + assert (0 < k) by lia. specialize (TP H). destruct BI as [BI _], BJ as [BJ _]. specialize (BI H). specialize (BJ H). nia.
Qed.

Lemma vec_get_ok l i : 0 <= i < Z.of_nat (length l) -> exists a, vec_get l i = Ok a /\ nth_error l (Z.to_nat i) = Some a.
Proof.
  intros B. unfold vec_get. destruct (Z.ltb_spec i 0); [lia|]. destruct (nth_error l (Z.to_nat i)) as [a|] eqn:E; [eauto|]. apply nth_error_None in E. lia.
Qed.
Lemma u64_next i k : to_u 64 (i + to_u 64 k) = to_u 64 (i + k).
Proof. unfold to_u. now rewrite Z.add_mod_idemp_r by lia. Qed.
Lemma u64_id i : 0 <= i < 2 ^ 63 -> to_u 64 i = i.
Proof. intros B. unfold to_u. apply Z.mod_small. lia. Qed.

Lemma read_ok l k : Z.of_nat (length l) < 2 ^ 63 -> forall len i, (forall m, 0 <= m < Z.of_nat len -> 0 <= i + m * k < Z.of_nat (length l)) ->
  exists r, slice_read l len (to_u 64 i) (to_u 64 k) = Ok r /\ length r = len /\ (forall m, (m < len)%nat -> nth_error r m = nth_error l (Z.to_nat (i + Z.of_nat m * k))) /\ incl r l.
Proof.
  intros N. induction len as [|len IH]; intros i B; cbn [slice_read].
  - exists []. split; [reflexivity|]. split; [reflexivity|]. split; [lia|]. intros x [].
  - assert (B0 := B 0 ltac:(lia)). replace (i + 0 * k) with i in B0 by lia. rewrite (u64_id i) by lia. destruct (vec_get_ok l i B0) as (a & -> & EA). cbn [bind].
    rewrite u64_next. destruct (IH (i + k)) as (r & -> & LR & ER & IR).
    { intros m M. specialize (B (m + 1) ltac:(lia)). replace (i + k + m * k) with (i + (m + 1) * k) by lia. exact B. }
    cbn [bind]. exists (a :: r). split; [reflexivity|]. split; [cbn; lia|]. split.
    + intros [|m] M; cbn [nth_error]; [now replace (i + Z.of_nat 0 * k) with i by lia|]. rewrite ER by lia. f_equal. f_equal. lia.
    + intros x [<-|I]; [eapply nth_error_In; eauto|auto].
Qed.

Lemma all_fit_ok h c : forall l, (forall a, In a l -> exists p, nth_error h a = Some p /\ p_fmt p = c_fmt c /\ p_reclen p = c_reclen c) -> all_fit h c l = Ok tt.
Proof.
  induction l as [|a l IH]; intros U; cbn [all_fit]; [reflexivity|]. destruct (U a (or_introl eq_refl)) as (p & E & F & R). unfold fits, hget. rewrite E. cbn [bind]. rewrite F, R, !Z.eqb_refl. cbn [andb]. apply IH. intros; apply U; now right.
Qed.
Lemma of_vec_ok h c l : uniform h c -> incl l (c_pts c) -> l <> [] -> points_of_vec h l = Ok (mkPoints (c_fmt c) (c_reclen c) l).
Proof.
  intros U I NE. destruct l as [|a l]; [contradiction|]. unfold points_of_vec, hget. destruct (U a (I a (or_introl eq_refl))) as (p & E & F & R). rewrite E. cbn [bind]. rewrite F, R. unfold add_points_vec.
  rewrite (all_fit_ok h (mkPoints (c_fmt c) (c_reclen c) [])); [reflexivity|]. intros b B. apply U. now apply I.
Qed.

Lemma put_length : forall l i a, length (vec_put l i a) = length l.
Proof. induction l as [|x l IH]; intros [|i] a; cbn; auto. Qed.
Lemma put_same : forall l i a, (i < length l)%nat -> nth_error (vec_put l i a) i = Some a.
Proof. induction l as [|x l IH]; intros [|i] a L; cbn in *; try lia; [reflexivity|apply IH; lia]. Qed.
Lemma put_other : forall l i j a, i <> j -> nth_error (vec_put l i a) j = nth_error l j.
Proof. induction l as [|x l IH]; intros [|i] [|j] a N; cbn; try reflexivity; try lia. apply IH. lia. Qed.
Lemma vec_set_ok l i a : 0 <= i < Z.of_nat (length l) -> vec_set l i a = Ok (vec_put l (Z.to_nat i) a).
Proof. intros B. unfold vec_set. destruct (Z.ltb_spec i 0); [lia|]. destruct (Z.leb_spec (Z.of_nat (length l)) i); [lia|]. reflexivity. Qed.

(* writing from another container *)
Lemma write_ok v k : k <> 0 -> forall len l i p, Z.of_nat (length l) < 2 ^ 63 -> (forall m, 0 <= m < Z.of_nat len -> 0 <= i + m * k < Z.of_nat (length l)) -> 0 <= p -> p + Z.of_nat len <= Z.of_nat (length v) ->
  exists r, slice_write l (Some v) len p (to_u 64 i) (to_u 64 k) = Ok r /\ length r = length l /\
    (forall m, (m < len)%nat -> nth_error r (Z.to_nat (i + Z.of_nat m * k)) = nth_error v (Z.to_nat p + m)) /\
    (forall j, (forall m, 0 <= m < Z.of_nat len -> i + m * k <> Z.of_nat j) -> nth_error r j = nth_error l j).
Proof.
  intros K. induction len as [|len IH]; intros l i p N B P V; cbn [slice_write].
  - exists l. repeat (split; [reflexivity||lia|]). auto.
  - assert (B0 := B 0 ltac:(lia)). replace (i + 0 * k) with i in B0 by lia. destruct (vec_get_ok v p ltac:(lia)) as (a & -> & EA). cbn [bind].
    rewrite (u64_id i) by lia. rewrite (vec_set_ok l i a B0). cbn [bind]. rewrite u64_next.
    destruct (IH (vec_put l (Z.to_nat i) a) (i + k) (p + 1)) as (r & -> & LR & ER & OR); rewrite ?put_length; try lia.
    { intros m M. specialize (B (m + 1) ltac:(lia)). replace (i + k + m * k) with (i + (m + 1) * k) by lia. exact B. }
    exists r. split; [reflexivity|]. split; [now rewrite LR, put_length|]. split.
    + intros [|m] M.
      * replace (i + Z.of_nat 0 * k) with i by lia. rewrite OR; [|intros m M'; nia]. rewrite put_same by lia. rewrite <- EA. f_equal. lia.
      * specialize (ER m ltac:(lia)). replace (i + Z.of_nat (S m) * k) with (i + k + Z.of_nat m * k) by lia. rewrite ER. f_equal. lia.
    + intros j J. rewrite OR; [|intros m M; specialize (J (m + 1) ltac:(lia)); lia]. apply put_other. specialize (J 0 ltac:(lia)). lia.
Qed.
