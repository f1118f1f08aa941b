(* PropPy.v - C67, C69: box filters of a Points container, and its Python sequence protocol *)
From Coq Require Import Reals Lra.
From Verif Require Import Base BaseFacts ModelFloat ModelKey ModelGeom ModelPoint ModelPoints ModelPy SpecPoint SpecGeom SpecPoints SpecPy SpecWithin ProofFloat ProofPoint ProofPoints ProofPy.
Open Scope Z_scope.

(* ---- C67: Within and GetWithin ---- *)
Lemma within_iff h b a p : no_nan b -> nth_error h a = Some p -> (point_within p b = true <-> lies_in h b a).
Proof.
  intros (N1 & N2 & N3 & N4 & N5 & N6) E. unfold point_within, box_contains_pt, fge, lies_in, mem, ext. cbn [vx vy vz]. rewrite !andb_true_iff, !fle_iff. split.
  - intros (((((A & B) & C) & D) & F) & G). exists p. split; [exact E|]. intuition.
  - intros (q & E' & X & Y & Z & M). assert (q = p) by congruence. subst q. intuition.
Qed.
Theorem C67_get_within : forall h c b, uniform h c -> no_nan b -> exists l, get_within h (c_pts c) b = Ok l /\ keeps (lies_in h b) (c_pts c) l.
Proof.
  intros h c b U N. unfold uniform in U. induction (c_pts c) as [|a l IH]; cbn [get_within].
  - exists []. split; [reflexivity|constructor].
  - destruct IH as (r & -> & K); [intros; apply U; now right|]. destruct (U a (or_introl eq_refl)) as (p & E & _). unfold hget. rewrite E. cbn [bind].
    destruct (point_within p b) eqn:W; eexists; (split; [reflexivity|]).
    + apply keeps_in; [|exact K]. now apply (within_iff h b a p N E).
    + apply keeps_out; [|exact K]. intros L. apply (within_iff h b a p N E) in L. congruence.
Qed.
Print Assumptions C67_get_within.
Lemma mapM_objects h : forall l, (forall a, In a l -> exists p, nth_error h a = Some p) -> exists ps, mapM (hget h) l = Ok ps /\ Forall2 (fun a p => nth_error h a = Some p) l ps.
Proof.
  induction l as [|a l IH]; intros U; cbn [mapM]; [exists []; auto|]. destruct (U a (or_introl eq_refl)) as (p & E). unfold hget at 1. rewrite E. cbn [bind]. destruct IH as (ps & -> & F); [intros; apply U; now right|].
  cbn [bind]. exists (p :: ps). split; [reflexivity|]. now constructor.
Qed.
Theorem C67_within : forall h c b, uniform h c -> no_nan b -> exists v, points_within h c b = Ok v /\ (v = true <-> forall a, In a (c_pts c) -> lies_in h b a).
Proof.
  intros h c b U N. unfold points_within. destruct (mapM_objects h (c_pts c)) as (ps & -> & F); [intros a A; destruct (U a A) as (p & E & _); eauto|]. cbn [bind]. eexists. split; [reflexivity|].
  clear U. induction F as [|a p l ps E F IH]; cbn [forallb]; [split; [intros _ a []|reflexivity]|]. rewrite andb_true_iff, IH, (within_iff h b a p N E). split.
  - intros [A B] x [<-|I]; auto.
  - intros A. split; [apply A; now left|intros x I; apply A; now right].
Qed.
Print Assumptions C67_within.
(* three points of which the middle one is outside and the last one has no x *)
Definition at_x (x : f64) : point := mkPoint 6 30 x f1 f1 0 0 0 0 0 0 0 f0 0 0 0 0 false false [].
Example C67_nonvacuous : let h := [at_x f1; at_x (f64_of_Z 5); at_x f1; at_x (fdiv f0 f0)] in let c := mkPoints 6 30 [0; 1; 2; 3]%nat in let b := mkBox f0 f0 f0 f1 f1 f1 in
  uniform h c /\ no_nan b /\ get_within h (c_pts c) b = Ok [0; 2]%nat /\ points_within h c b = Ok false /\ points_within h (mkPoints 6 30 [0; 2]%nat) b = Ok true.
Proof.
  cbv zeta. split. { intros a [<-|[<-|[<-|[<-|[]]]]]; eexists; (split; [reflexivity|split; reflexivity]). } split; [repeat split; reflexivity|]. split; [vm_compute; reflexivity|]. split; vm_compute; reflexivity.
Qed.

(* ---- C69: indexing, slicing, membership ---- *)
Theorem C69_get_item : forall c i, match py_get c i with
  | Ok a => 0 <= position (Z.of_nat (length (c_pts c))) i /\ nth_error (c_pts c) (Z.to_nat (position (Z.of_nat (length (c_pts c))) i)) = Some a
  | Throw => ~ 0 <= position (Z.of_nat (length (c_pts c))) i < Z.of_nat (length (c_pts c))
  | UB => False end.
Proof.
  intros c i. unfold py_get, wrap_i. set (n := Z.of_nat (length (c_pts c))). replace (if i <? 0 then i + n else i) with (position n i) by (unfold position; destruct (i <? 0); lia).
  destruct (Z.ltb_spec (position n i) 0); cbn [orb bind]; [lia|]. destruct (Z.leb_spec n (position n i)); cbn [bind]; [lia|].
  destruct (vec_get_ok (c_pts c) (position n i)) as (a & -> & E); [lia|]. auto.
Qed.
Print Assumptions C69_get_item.
Theorem C69_set_item : forall c i a, match py_set c i a with
  | Ok d => 0 <= position (Z.of_nat (length (c_pts c))) i < Z.of_nat (length (c_pts c)) /\ c_fmt d = c_fmt c /\ c_reclen d = c_reclen c /\ length (c_pts d) = length (c_pts c) /\
      forall j, nth_error (c_pts d) j = if Z.of_nat j =? position (Z.of_nat (length (c_pts c))) i then Some a else nth_error (c_pts c) j
  | Throw => ~ 0 <= position (Z.of_nat (length (c_pts c))) i < Z.of_nat (length (c_pts c))
  | UB => False end.
Proof.
  intros c i a. unfold py_set, wrap_i. set (n := Z.of_nat (length (c_pts c))). replace (if i <? 0 then i + n else i) with (position n i) by (unfold position; destruct (i <? 0); lia).
  destruct (Z.ltb_spec (position n i) 0); cbn [orb bind]; [lia|]. destruct (Z.leb_spec n (position n i)); cbn [bind]; [lia|].
  rewrite (vec_set_ok (c_pts c) (position n i) a) by lia. cbn [bind c_fmt c_reclen c_pts with_pts]. split; [lia|]. split; [reflexivity|]. split; [reflexivity|]. split; [apply put_length|].
  intros j. destruct (Z.eqb_spec (Z.of_nat j) (position n i)) as [E|E].
  - replace (Z.to_nat (position n i)) with j by lia. apply put_same. lia.
  - apply put_other. lia.
Qed.
Print Assumptions C69_set_item.
(* a slice holds exactly the elements Python selects, in order, when it selects any *)
Theorem C69_get_slice : forall h c start stop step, uniform h c -> Z.of_nat (length (c_pts c)) < 2 ^ 63 -> nonzero step -> ssize start -> ssize stop -> ssize step ->
  taken (Z.of_nat (length (c_pts c))) start stop step 0 ->
  exists d, py_get_slice h c start stop step = Ok d /\ c_fmt d = c_fmt c /\ c_reclen d = c_reclen c /\ uniform h d /\
    forall m, (taken (Z.of_nat (length (c_pts c))) start stop step (Z.of_nat m) -> exists a, nth_error (c_pts d) m = Some a /\ nth_error (c_pts c) (Z.to_nat (taken_at (Z.of_nat (length (c_pts c))) start step (Z.of_nat m))) = Some a) /\
              (~ taken (Z.of_nat (length (c_pts c))) start stop step (Z.of_nat m) -> nth_error (c_pts d) m = None).
Proof.
  intros h c start stop step U N NZ S1 S2 S3 T0. unfold py_get_slice. set (n := Z.of_nat (length (c_pts c))) in *.
  destruct (compute_ok n start stop step) as (len & -> & L0 & TL & TB); try assumption; [lia|]. cbn [bind].
  assert (AT : forall m, taken_at n start step 0 + m * step_of step = taken_at n start step m) by (intros; unfold taken_at; fold (step_of step); lia).
  destruct (read_ok (c_pts c) (step_of step) N (Z.to_nat len) (taken_at n start step 0)) as (r & -> & LR & ER & IR).
  { intros m M. rewrite AT. apply TB. apply TL; lia. }
  cbn [bind]. assert (L1 : 0 < len) by (apply TL; [lia|exact T0]). rewrite (of_vec_ok h c r U IR); [|intros ->; cbn in LR; lia].
  eexists. split; [reflexivity|]. cbn [c_fmt c_reclen c_pts]. split; [reflexivity|]. split; [reflexivity|]. split; [intros a A; exact (U a (IR a A))|]. intros m. split.
  - intros T. assert (M : Z.of_nat m < len) by (apply TL; [lia|exact T]). rewrite ER by lia. rewrite AT. destruct (vec_get_ok (c_pts c) (taken_at n start step (Z.of_nat m)) (TB _ T)) as (a & _ & E). eauto.
  - intros T. apply nth_error_None. rewrite LR. destruct (Z.ltb_spec (Z.of_nat m) len) as [M|M]; [|lia]. exfalso. apply T. apply TL; lia.
Qed.
Print Assumptions C69_get_slice.
Theorem C69_zero_step_throws : forall h c start stop d, py_get_slice h c start stop (Some 0) = Throw /\ py_set_slice c start stop (Some 0) d = Throw.
Proof. intros. split; reflexivity. Qed.
Print Assumptions C69_zero_step_throws.
(* assigning the elements of another container to a slice *)
Theorem C69_set_slice : forall c d start stop step, Z.of_nat (length (c_pts c)) < 2 ^ 63 -> nonzero step -> ssize start -> ssize stop -> ssize step ->
  (* the value has as many elements as Python selects *)
  (forall m, 0 <= m -> (m < Z.of_nat (length (c_pts d)) <-> taken (Z.of_nat (length (c_pts c))) start stop step m)) ->
  exists e, py_set_slice c start stop step (Some d) = Ok e /\ c_fmt e = c_fmt c /\ c_reclen e = c_reclen c /\ length (c_pts e) = length (c_pts c) /\
    (forall m, (m < length (c_pts d))%nat -> nth_error (c_pts e) (Z.to_nat (taken_at (Z.of_nat (length (c_pts c))) start step (Z.of_nat m))) = nth_error (c_pts d) m) /\
    (forall j, (forall m, taken (Z.of_nat (length (c_pts c))) start stop step m -> taken_at (Z.of_nat (length (c_pts c))) start step m <> Z.of_nat j) -> nth_error (c_pts e) j = nth_error (c_pts c) j).
Proof.
  intros c d start stop step N NZ S1 S2 S3 LD. unfold py_set_slice. set (n := Z.of_nat (length (c_pts c))) in *.
  destruct (compute_ok n start stop step) as (len & -> & L0 & TL & TB); try assumption; [lia|]. cbn [bind].
  assert (EL : len = Z.of_nat (length (c_pts d))). { destruct (Z.lt_trichotomy len (Z.of_nat (length (c_pts d)))) as [Q|[Q|Q]]; [|exact Q|]; exfalso.
    - assert (len < len); [|lia]. apply TL; [lia|]. now apply LD.
    - assert (X : Z.of_nat (length (c_pts d)) < Z.of_nat (length (c_pts d))); [|lia]. apply LD; [lia|]. apply TL; lia. }
  rewrite EL, Z.eqb_refl. cbn [negb].
  assert (AT : forall m, taken_at n start step 0 + m * step_of step = taken_at n start step m) by (intros; unfold taken_at; fold (step_of step); lia).
  assert (K : step_of step <> 0) by (unfold step_of, nonzero in *; destruct step; [congruence|lia]).
  destruct (write_ok (c_pts d) (step_of step) K (Z.to_nat (Z.of_nat (length (c_pts d)))) (c_pts c) (taken_at n start step 0) 0) as (r & -> & LR & ER & OR); try lia.
  { intros m M. rewrite AT. apply TB. apply TL; lia. }
  cbn [bind]. eexists. split; [reflexivity|]. cbn [c_fmt c_reclen c_pts with_pts]. split; [reflexivity|]. split; [reflexivity|]. split; [exact LR|]. split.
  - intros m M. rewrite <- AT. rewrite ER by lia. reflexivity.
  - intros j J. apply OR. intros m M. rewrite AT. apply J. apply TL; lia.
Qed.
Print Assumptions C69_set_slice.
Theorem C69_set_slice_wrong_length_throws : forall c d start stop step, Z.of_nat (length (c_pts c)) < 2 ^ 63 -> nonzero step -> ssize start -> ssize stop -> ssize step ->
  ~ (forall m, 0 <= m -> (m < Z.of_nat (length (c_pts d)) <-> taken (Z.of_nat (length (c_pts c))) start stop step m)) -> py_set_slice c start stop step (Some d) = Throw.
Proof.
  intros c d start stop step N NZ S1 S2 S3 LD. unfold py_set_slice. set (n := Z.of_nat (length (c_pts c))) in *.
  destruct (compute_ok n start stop step) as (len & -> & L0 & TL & TB); try assumption; [lia|]. cbn [bind].
  destruct (Z.eqb_spec len (Z.of_nat (length (c_pts d)))) as [E|E]; [|reflexivity]. exfalso. apply LD. rewrite <- E. exact TL.
Qed.
Print Assumptions C69_set_slice_wrong_length_throws.
(* iteration and membership *)
Theorem C69_iter : forall c, length (py_iter c) = length (c_pts c) /\ forall i, 0 <= i < Z.of_nat (length (c_pts c)) -> match py_get c i with Ok a => nth_error (py_iter c) (Z.to_nat i) = Some a | _ => False end.
Proof.
  intros c. split; [reflexivity|]. intros i B. generalize (C69_get_item c i). unfold position. destruct (Z.ltb_spec i 0); [lia|]. destruct (py_get c i); [tauto|lia|auto].
Qed.
Print Assumptions C69_iter.
Theorem C69_contains : forall c a, py_contains c a = true <-> In a (c_pts c).
Proof. intros c a. unfold py_contains. rewrite existsb_exists. split; [intros (x & I & E); apply Nat.eqb_eq in E; now subst|intros I; exists a; split; [exact I|apply Nat.eqb_refl]]. Qed.
Print Assumptions C69_contains.

(* Python's slices of nothing are empty; here they raise *)
Theorem C69_empty_slice_refuted : forall h c start stop step, Z.of_nat (length (c_pts c)) < 2 ^ 63 -> nonzero step -> ssize start -> ssize stop -> ssize step ->
  ~ taken (Z.of_nat (length (c_pts c))) start stop step 0 -> py_get_slice h c start stop step = Throw.
Proof.
  intros h c start stop step N NZ S1 S2 S3 T. unfold py_get_slice. set (n := Z.of_nat (length (c_pts c))) in *.
  destruct (compute_ok n start stop step) as (len & -> & L0 & TL & TB); try assumption; [lia|]. cbn [bind].
  assert (len = 0) as ->; [|reflexivity]. destruct (Z.ltb_spec 0 len) as [L|L]; [|lia]. exfalso. apply T. apply TL; lia.
Qed.
Print Assumptions C69_empty_slice_refuted.
(* item assignment checks nothing: a point of another format, or None, gets into the container *)
Theorem C69_assignment_breaks_uniformity_refuted : exists h c a d, uniform h c /\ py_set c 0 a = Ok d /\ ~ uniform h d /\ points_pack h d (mkVec f1 f1 f1) (mkVec f0 f0 f0) <> UB.
Proof.
  exists [at_x f1; mkPoint 7 36 f1 f1 f1 0 0 0 0 0 0 0 f0 0 0 0 0 true false []], (mkPoints 6 30 [0%nat]), 1%nat, (mkPoints 6 30 [1%nat]). split; [intros a [<-|[]]; eexists; split; [reflexivity|split; reflexivity]|].
  split; [reflexivity|]. split; [intros U; destruct (U 1%nat (or_introl eq_refl)) as (p & E & F & _); cbn in E; injection E as <-; cbn in F; lia|]. vm_compute. discriminate.
Qed.
Print Assumptions C69_assignment_breaks_uniformity_refuted.
Theorem C69_none_refuted : exists h c null d, uniform h c /\ nth_error h null = None /\ py_set c 0 null = Ok d /\ points_pack h d (mkVec f1 f1 f1) (mkVec f0 f0 f0) = UB.
Proof.
  exists [at_x f1], (mkPoints 6 30 [0%nat]), 1%nat, (mkPoints 6 30 [1%nat]). split; [intros a [<-|[]]; eexists; split; [reflexivity|split; reflexivity]|]. repeat (split; [reflexivity|]). reflexivity.
Qed.
Print Assumptions C69_none_refuted.
(* reversing in place: the value is read while it is being overwritten *)
Theorem C69_self_assignment_refuted : exists c e, py_set_slice c None None (Some (-1)) (Some c) = Ok e /\ c_pts e = rev (c_pts c) /\
  exists e', py_set_slice c None None (Some (-1)) None = Ok e' /\ c_pts e' <> rev (c_pts c).
Proof.
  exists (mkPoints 6 30 [4; 5; 6]%nat). eexists. split; [vm_compute; reflexivity|]. split; [reflexivity|]. eexists. split; [vm_compute; reflexivity|]. discriminate.
Qed.
Print Assumptions C69_self_assignment_refuted.
(* 'in' compares identity: an equal point that is another object is not found *)
Theorem C69_contains_equal_refuted : exists h c a b p q, uniform h c /\ In a (c_pts c) /\ nth_error h a = Some p /\ nth_error h b = Some q /\ point_eqb p q = Ok true /\ py_contains c b = false.
Proof.
  exists [at_x f1; at_x f1], (mkPoints 6 30 [0%nat]), 0%nat, 1%nat, (at_x f1), (at_x f1). split; [intros a [<-|[]]; eexists; split; [reflexivity|split; reflexivity]|]. split; [now left|]. split; [reflexivity|]. split; [reflexivity|]. split; [vm_compute; reflexivity|reflexivity].
Qed.
Print Assumptions C69_contains_equal_refuted.
Example C69_nonvacuous : let h := [at_x f0; at_x f1; at_x f0; at_x f1; at_x f0] in let c := mkPoints 6 30 [0; 1; 2; 3; 4]%nat in
  uniform h c /\ nonzero (Some (-2)) /\ ssize (Some (-2)) /\ taken 5 (Some (-1)) None (Some (-2)) 0 /\ py_get_slice h c (Some (-1)) None (Some (-2)) = Ok (mkPoints 6 30 [4; 2; 0]%nat) /\
  py_get c (-1) = Ok 4%nat /\ py_get c 5 = Throw /\ py_set_slice c (Some 1) (Some 4) None (Some (mkPoints 6 30 [0; 0; 0]%nat)) = Ok (mkPoints 6 30 [0; 0; 0; 0; 4]%nat).
Proof.
  cbv zeta. split. { intros a [<-|[<-|[<-|[<-|[<-|[]]]]]]; eexists; (split; [reflexivity|split; reflexivity]). } split; [discriminate|]. split; [cbn; lia|]. split; [unfold taken, slice_first, slice_stop, position; cbn; lia|].
  split; [vm_compute; reflexivity|]. split; [vm_compute; reflexivity|]. split; vm_compute; reflexivity.
Qed.
