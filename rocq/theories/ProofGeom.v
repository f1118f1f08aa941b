(* ProofGeom.v - proofs about boxes (C19, C21-C23, C63) *)
From Verif Require Import BaseFacts ModelFloat ModelKey SpecKey ProofKey ModelGeom ProofFloat SpecGeom ProofScale.
From Coq Require Import Reals Lra ZifyBool.
From Flocq Require Import Core Mult_error IEEE754.BinarySingleNaN IEEE754.Binary.
Open Scope Z_scope.

(* ---- C19 ---- *)

Lemma fle_of_not_lt x y : fnan x = false -> fnan y = false -> flt x y = false -> fle y x = true.
Proof.
  intros Hx Hy H. apply fle_iff. repeat split; auto. destruct (Rle_or_lt (rank y) (rank x)) as [|C]; auto.
  assert (flt x y = true) by (apply flt_iff; auto). congruence.
Qed.
Lemma fle_of_lt x y : flt x y = true -> fle x y = true.
Proof. rewrite flt_iff, fle_iff. intuition lra. Qed.

Definition min1 (p m : f64) := if flt p m then p else m.
Definition max1 (p m : f64) := if fgt p m then p else m.
Lemma min1_spec p m : fnan p = false -> fnan m = false ->
  fle (min1 p m) m = true /\ fle (min1 p m) p = true /\ (min1 p m = m \/ min1 p m = p) /\ fnan (min1 p m) = false.
Proof.
  intros Hp Hm. unfold min1. destruct (flt p m) eqn:E.
  - repeat split; auto using fle_of_lt, fle_refl.
  - repeat split; auto using fle_refl. now apply fle_of_not_lt.
Qed.
Lemma max1_spec p m : fnan p = false -> fnan m = false ->
  fle m (max1 p m) = true /\ fle p (max1 p m) = true /\ (max1 p m = m \/ max1 p m = p) /\ fnan (max1 p m) = false.
Proof.
  intros Hp Hm. unfold max1, fgt. destruct (flt m p) eqn:E.
  - repeat split; auto using fle_of_lt, fle_refl.
  - repeat split; auto using fle_refl. now apply fle_of_not_lt.
Qed.

(* one axis of a sequence of updates *)
Lemma fold_min ps : forall m, fnan m = false -> Forall (fun p => fnan p = false) ps ->
  let r := fold_left (fun m p => min1 p m) ps m in
  fle r m = true /\ (forall p, In p ps -> fle r p = true) /\ (r = m \/ In r ps) /\ fnan r = false.
Proof.
  induction ps as [|p ps IH]; cbn; intros m Hm F.
  - repeat split; auto using fle_refl; intros p [].
  - inversion F as [|? ? Hp F']; subst. destruct (min1_spec p m Hp Hm) as (A & B & C & D).
    destruct (IH (min1 p m) D F') as (A' & B' & C' & D'). repeat split; auto.
    + eapply fle_trans; eauto.
    + intros q [<-|Hq]; [eapply fle_trans; eauto|auto].
    + destruct C' as [->|C']; [destruct C as [->| ->]; auto|auto].
Qed.
Lemma fold_max ps : forall m, fnan m = false -> Forall (fun p => fnan p = false) ps ->
  let r := fold_left (fun m p => max1 p m) ps m in
  fle m r = true /\ (forall p, In p ps -> fle p r = true) /\ (r = m \/ In r ps) /\ fnan r = false.
Proof.
  induction ps as [|p ps IH]; cbn; intros m Hm F.
  - repeat split; auto using fle_refl; intros p [].
  - inversion F as [|? ? Hp F']; subst. destruct (max1_spec p m Hp Hm) as (A & B & C & D).
    destruct (IH (max1 p m) D F') as (A' & B' & C' & D'). repeat split; auto.
    + eapply fle_trans; eauto.
    + intros q [<-|Hq]; [eapply fle_trans; eauto|auto].
    + destruct C' as [->|C']; [destruct C as [->| ->]; auto|auto].
Qed.

Lemma fold_bounds ps : forall mn mx,
  fold_left update_bounds ps (mn, mx) =
  (mkVec (fold_left (fun m p => min1 p m) (map vx ps) (vx mn)) (fold_left (fun m p => min1 p m) (map vy ps) (vy mn))
         (fold_left (fun m p => min1 p m) (map vz ps) (vz mn)),
   mkVec (fold_left (fun m p => max1 p m) (map vx ps) (vx mx)) (fold_left (fun m p => max1 p m) (map vy ps) (vy mx))
         (fold_left (fun m p => max1 p m) (map vz ps) (vz mx))).
Proof.
  induction ps as [|p ps IH]; intros mn mx; cbn [fold_left map].
  - destruct mn, mx; reflexivity.
  - unfold update_bounds at 2. rewrite IH. reflexivity.
Qed.

Lemma bounds_spec ps mn mx mn' mx' : no_nan_v mn -> no_nan_v mx -> Forall no_nan_v ps ->
  fold_left update_bounds ps (mn, mx) = (mn', mx') ->
  (fle (vx mn') (vx mn) = true /\ fle (vy mn') (vy mn) = true /\ fle (vz mn') (vz mn) = true) /\
  (fle (vx mx) (vx mx') = true /\ fle (vy mx) (vy mx') = true /\ fle (vz mx) (vz mx') = true) /\
  (forall p, In p ps -> box_contains_pt (mkBox (vx mn') (vy mn') (vz mn') (vx mx') (vy mx') (vz mx')) p = true) /\
  ((vx mn' = vx mn \/ exists p, In p ps /\ vx mn' = vx p) /\ (vy mn' = vy mn \/ exists p, In p ps /\ vy mn' = vy p) /\
   (vz mn' = vz mn \/ exists p, In p ps /\ vz mn' = vz p) /\
   (vx mx' = vx mx \/ exists p, In p ps /\ vx mx' = vx p) /\ (vy mx' = vy mx \/ exists p, In p ps /\ vy mx' = vy p) /\
   (vz mx' = vz mx \/ exists p, In p ps /\ vz mx' = vz p)).
Proof.
  intros (A1 & A2 & A3) (B1 & B2 & B3) F H. rewrite fold_bounds in H. injection H as <- <-. cbn [vx vy vz].
  assert (Fx : Forall (fun p => fnan p = false) (map vx ps)) by (apply Forall_map; eapply Forall_impl; [|exact F]; intros a (?&?&?); auto).
  assert (Fy : Forall (fun p => fnan p = false) (map vy ps)) by (apply Forall_map; eapply Forall_impl; [|exact F]; intros a (?&?&?); auto).
  assert (Fz : Forall (fun p => fnan p = false) (map vz ps)) by (apply Forall_map; eapply Forall_impl; [|exact F]; intros a (?&?&?); auto).
  destruct (fold_min _ _ A1 Fx) as (x1 & x2 & x3 & _). destruct (fold_min _ _ A2 Fy) as (y1 & y2 & y3 & _).
  destruct (fold_min _ _ A3 Fz) as (z1 & z2 & z3 & _). destruct (fold_max _ _ B1 Fx) as (x4 & x5 & x6 & _).
  destruct (fold_max _ _ B2 Fy) as (y4 & y5 & y6 & _). destruct (fold_max _ _ B3 Fz) as (z4 & z5 & z6 & _).
  split; [auto|]. split; [auto|]. split.
  - intros p Hp. unfold box_contains_pt, fge. cbn [x_min x_max y_min y_max z_min z_max].
    rewrite x5, x2, y5, y2, z5, z2 by (apply in_map; auto). reflexivity.
  - assert (G : forall (f : vec3 -> f64) r m, r = m \/ In r (map f ps) -> r = m \/ exists p, In p ps /\ r = f p).
    { intros f r m [|I]; auto. apply in_map_iff in I. destruct I as (p & E & Hp). right. exists p. auto. }
    repeat split; apply G; auto.
Qed.

(* ---- C21 ---- *)
Lemma box3_spec x0 y0 z0 x1 y1 z1 :
  (flt x1 x0 = true \/ flt y1 y0 = true \/ flt z1 z0 = true) /\ box3 x0 y0 z0 x1 y1 z1 = Throw \/
  (flt x1 x0 = false /\ flt y1 y0 = false /\ flt z1 z0 = false) /\ box3 x0 y0 z0 x1 y1 z1 = Ok (mkBox x0 y0 z0 x1 y1 z1).
Proof. unfold box3. destruct (flt x1 x0), (flt y1 y0), (flt z1 z0); cbn; tauto. Qed.

Lemma fle_ext x y : fnan x = false -> fnan y = false -> (fle x y = true <-> (ext x <= ext y)%R).
Proof. intros. rewrite fle_iff. unfold ext. tauto. Qed.

Lemma box3_ordered b : no_nan b ->
  (box3 (x_min b) (y_min b) (z_min b) (x_max b) (y_max b) (z_max b) = Ok b <-> ordered b).
Proof.
  intros N. pose proof N as (a1 & a2 & a3 & a4 & a5 & a6). unfold ordered, ext.
  destruct (box3_spec (x_min b) (y_min b) (z_min b) (x_max b) (y_max b) (z_max b)) as [(H & ->)|((h1 & h2 & h3) & ->)].
  - split; [discriminate|]. intros (_ & o1 & o2 & o3). exfalso. rewrite !flt_iff in H. intuition lra.
  - split.
    + intros _. apply fle_of_not_lt in h1, h2, h3; auto. rewrite fle_iff in h1, h2, h3. tauto.
    + intros _. destruct b; reflexivity.
Qed.

Lemma contains_pt_spec b v : no_nan b -> no_nan_v v ->
  (box_contains_pt b v = true <-> mem b (ext (vx v)) (ext (vy v)) (ext (vz v))).
Proof.
  intros (a1 & a2 & a3 & a4 & a5 & a6) (v1 & v2 & v3). unfold box_contains_pt, mem, fge.
  rewrite !andb_true_iff, !fle_ext by assumption. tauto.
Qed.

Lemma contains_spec a b : ordered a -> ordered b ->
  (box_contains a b = true <-> forall x y z, mem b x y z -> mem a x y z).
Proof.
  intros ((a1 & a2 & a3 & a4 & a5 & a6) & oa1 & oa2 & oa3) ((b1 & b2 & b3 & b4 & b5 & b6) & ob1 & ob2 & ob3).
  unfold box_contains, mem, fge. rewrite !andb_true_iff, !fle_ext by assumption. split.
  - intros H x y z M. lra.
  - intros H. pose proof (H (ext (x_min b)) (ext (y_min b)) (ext (z_min b))) as L.
    pose proof (H (ext (x_max b)) (ext (y_max b)) (ext (z_max b))) as U. lra.
Qed.

Lemma intersects_spec a b : ordered a -> ordered b ->
  (box_intersects a b = true <-> exists x y z, mem a x y z /\ mem b x y z).
Proof.
  intros ((a1 & a2 & a3 & a4 & a5 & a6) & oa1 & oa2 & oa3) ((b1 & b2 & b3 & b4 & b5 & b6) & ob1 & ob2 & ob3).
  unfold box_intersects, mem, fge. rewrite !andb_true_iff, !fle_ext by assumption. split.
  - intros H. exists (Rmax (ext (x_min a)) (ext (x_min b))), (Rmax (ext (y_min a)) (ext (y_min b))), (Rmax (ext (z_min a)) (ext (z_min b))).
    unfold Rmax. repeat destruct (Rle_dec _ _); lra.
  - intros (x & y & z & Ma & Mb). lra.
Qed.

Lemma intersects_sym a b : box_intersects a b = box_intersects b a.
Proof.
  unfold box_intersects, fge.
  destruct (fle (x_min b) (x_max a)), (fle (x_min a) (x_max b)), (fle (y_min b) (y_max a)), (fle (y_min a) (y_max b)),
    (fle (z_min b) (z_max a)), (fle (z_min a) (z_max b)); reflexivity.
Qed.
Lemma within_refl a : no_nan a -> box_within a a = true.
Proof.
  intros (a1 & a2 & a3 & a4 & a5 & a6). unfold box_within, box_contains, fge. rewrite !fle_refl by assumption. reflexivity.
Qed.
Lemma within_trans a b c : box_within a b = true -> box_within b c = true -> box_within a c = true.
Proof.
  unfold box_within, box_contains, fge. rewrite !andb_true_iff. intuition eauto using fle_trans.
Qed.
Lemma within_intersects a b : ordered a -> box_within a b = true -> box_intersects a b = true.
Proof.
  intros ((a1 & a2 & a3 & a4 & a5 & a6) & oa1 & oa2 & oa3) H. unfold box_within, box_contains, box_intersects, fge in *.
  rewrite !andb_true_iff in *. destruct H as (((((h1 & h2) & h3) & h4) & h5) & h6).
  assert (fle (x_min a) (x_max a) = true) by now apply fle_ext.
  assert (fle (y_min a) (y_max a) = true) by now apply fle_ext.
  assert (fle (z_min a) (z_max a) = true) by now apply fle_ext.
  repeat split; eauto using fle_trans.
Qed.

(* ---- C22, exact subdivision ---- *)
Open Scope R_scope.
Lemma cell_split m s d x : 
  cell_lo m s (d + 1) (2 * x) = cell_lo m s d x /\
  cell_hi m s (d + 1) (2 * x) = cell_lo m s (d + 1) (2 * x + 1) /\
  cell_hi m s (d + 1) (2 * x + 1) = cell_hi m s d x.
Proof.
  unfold cell_lo, cell_hi. rewrite bpow_plus. change (bpow radix2 1) with 2.
  pose proof (bpow_gt_0 radix2 d). repeat rewrite ?plus_IZR, ?mult_IZR.
  repeat split; field; lra.
Qed.
Lemma cell_faces m s d x : cell_hi m s d x = cell_lo m s d (x + 1).
Proof. reflexivity. Qed.
Lemma cell_mono m s d x : 0 <= s -> cell_lo m s d x <= cell_hi m s d x.
Proof.
  intros Hs. unfold cell_lo, cell_hi. rewrite plus_IZR.
  assert (0 <= s / bpow radix2 d). { apply Rmult_le_pos; auto. left. apply Rinv_0_lt_compat. apply bpow_gt_0. } lra.
Qed.

Lemma split1 m s d x p : 0 <= s ->
  (cell_lo m s d x <= p <= cell_hi m s d x <->
   exists b, (b = 0 \/ b = 1)%Z /\ cell_lo m s (d + 1) (2 * x + b) <= p <= cell_hi m s (d + 1) (2 * x + b)).
Proof.
  intros Hs. destruct (cell_split m s d x) as (E1 & E2 & E3).
  pose proof (cell_mono m s (d + 1) (2 * x) Hs). pose proof (cell_mono m s (d + 1) (2 * x + 1) Hs).
  split.
  - intros H'. destruct (Rle_or_lt p (cell_hi m s (d + 1) (2 * x))).
    + exists 0%Z. rewrite Z.add_0_r. split; auto. lra.
    + exists 1%Z. split; auto. lra.
  - intros (b & [->| ->] & H'); rewrite ?Z.add_0_r in H'; lra.
Qed.

Lemma bit_dir a b c : (a = 0 \/ a = 1)%Z -> (b = 0 \/ b = 1)%Z -> (c = 0 \/ c = 1)%Z ->
  exists dir, (0 <= dir <= 7)%Z /\ bit dir 0 = a /\ bit dir 1 = b /\ bit dir 2 = c.
Proof.
  intros Ha Hb Hc. exists (a + 2 * b + 4 * c)%Z.
  destruct Ha as [->| ->], Hb as [->| ->], Hc as [->| ->]; split; try lia; vm_compute; auto.
Qed.
Lemma bit_01 n i : (bit n i = 0 \/ bit n i = 1)%Z.
Proof. unfold bit. pose proof (Z.mod_pos_bound (n / 2 ^ i) 2 ltac:(lia)). lia. Qed.

Lemma children_tile k cs ax ay az s x y z : 0 <= s -> valid k -> children_fit k -> get_children k = Ok cs ->
  (in_cell k ax ay az s x y z <-> exists c, In c cs /\ in_cell c ax ay az s x y z).
Proof.
  intros Hs Hv Hf Hc. destruct (get_children_ok k Hv Hf) as (cs' & E & _ & _ & HI).
  assert (cs' = cs) by congruence. subst cs'. unfold in_cell. split.
  - intros (Hx & Hy & Hz). apply split1 in Hx, Hy, Hz; auto.
    destruct Hx as (bx & Bx & Hx), Hy as (by_ & By & Hy), Hz as (bz & Bz & Hz).
    destruct (bit_dir bx by_ bz Bx By Bz) as (dir & Hd & D0 & D1 & D2).
    eexists. split; [apply HI; exists dir; split; [exact Hd|apply bisect_ok; auto]|].
    cbn [kd kx ky kz]. rewrite D0, D1, D2. auto.
  - intros (c & Hin & Hx & Hy & Hz). apply HI in Hin. destruct Hin as (dir & Hd & Eb).
    rewrite bisect_ok in Eb by auto. injection Eb as <-. cbn [kd kx ky kz] in *.
    split; [|split]; apply split1; auto; eexists; (split; [apply bit_01|]); eauto.
Qed.

(* ---- binary64 boxes of keys, one axis ---- *)
Definition ax_step (sp : f64) (d : Z) : f64 := fdiv sp (fpow2 d).
Definition ax_lo (sp m : f64) (d x : Z) : f64 := fadd (fmul (ax_step sp d) (f64_of_Z x)) m.
Definition ax_hi (sp m : f64) (d x : Z) : f64 := fadd (ax_lo sp m d x) (ax_step sp d).

Lemma box_of_key_axes k mn mx :
  box_of_key k mn mx = mkBox (ax_lo (span mn mx) (vx mn) (kd k) (kx k)) (ax_lo (span mn mx) (vy mn) (kd k) (ky k))
    (ax_lo (span mn mx) (vz mn) (kd k) (kz k)) (ax_hi (span mn mx) (vx mn) (kd k) (kx k))
    (ax_hi (span mn mx) (vy mn) (kd k) (ky k)) (ax_hi (span mn mx) (vz mn) (kd k) (kz k)).
Proof. reflexivity. Qed.

Section axis.
Variables (sp m : f64) (d : Z).
Hypothesis Fsp : ffinite sp = true.
Hypothesis Fm : ffinite m = true.
Hypothesis Psp : 0 <= R64 sp <= bpow radix2 900.
Hypothesis Bm : Rabs (R64 m) <= bpow radix2 900.
Hypothesis Hd : (0 <= d <= 900)%Z.

Lemma step_bound : 0 <= R64 sp / bpow radix2 d <= bpow radix2 900.
Proof.
  pose proof (bpow_gt_0 radix2 d) as P. assert (1 <= bpow radix2 d) by (change 1 with (bpow radix2 0); apply bpow_le; lia).
  split.
  - apply Rmult_le_pos; [lra|]. left. now apply Rinv_0_lt_compat.
  - apply Rle_trans with (R64 sp); [|lra]. apply Rmult_le_reg_r with (bpow radix2 d); auto.
    unfold Rdiv. rewrite Rmult_assoc, Rinv_l, Rmult_1_r by lra.
    replace (R64 sp) with (R64 sp * 1) at 1 by lra. apply Rmult_le_compat_l; lra.
Qed.

Lemma step_correct : R64 (ax_step sp d) = rnd (R64 sp / bpow radix2 d) /\ ffinite (ax_step sp d) = true /\
  0 <= R64 (ax_step sp d) <= bpow radix2 900.
Proof.
  destruct (fpow2_exact d) as (E & F); [lia|]. unfold ax_step.
  pose proof step_bound as SB. pose proof (bpow_gt_0 radix2 d) as P.
  assert (B : Rabs (R64 sp / bpow radix2 d) <= bpow radix2 900) by (rewrite Rabs_pos_eq; lra).
  destruct (fdiv_correct sp (fpow2 d) Fsp) as (E1 & F1).
  { rewrite E. lra. }
  { rewrite E. apply Rle_lt_trans with (bpow radix2 900); [apply rnd_bound; [lia|exact B]|apply bpow_lt_Max; lia]. }
  rewrite E in E1. split; [exact E1|]. split; [exact F1|]. rewrite E1. split.
  - apply Rle_trans with (rnd 0); [rewrite round_0; [lra|typeclasses eauto]|]. apply rnd_le. lra.
  - apply Rle_trans with (1 := Rle_abs _). apply rnd_bound; [lia|exact B].
Qed.

Lemma lo_correct x : (0 <= x < 2 ^ 31)%Z ->
  R64 (ax_lo sp m d x) = rnd (rnd (R64 (ax_step sp d) * IZR x) + R64 m) /\ ffinite (ax_lo sp m d x) = true /\
  Rabs (R64 (ax_lo sp m d x)) <= bpow radix2 932.
Proof.
  intros Hx. destruct step_correct as (_ & Fs & Sb). destruct (f64_of_Z_exact x) as (Ex & Fx); [lia|].
  unfold ax_lo. set (s := ax_step sp d) in *.
  assert (X : 0 <= IZR x <= bpow radix2 31).
  { split; [now apply IZR_le|]. change (bpow radix2 31) with (IZR (2 ^ 31)). apply IZR_le. lia. }
  assert (B1 : Rabs (R64 s * IZR x) <= bpow radix2 931).
  { rewrite Rabs_mult, !Rabs_pos_eq by lra. change 931%Z with (900 + 31)%Z. rewrite bpow_plus. apply Rmult_le_compat; lra. }
  destruct (fmul_correct s (f64_of_Z x) Fs Fx) as (E1 & F1).
  { rewrite Ex. apply Rle_lt_trans with (bpow radix2 931); [apply rnd_bound; [lia|exact B1]|apply bpow_lt_Max; lia]. }
  rewrite Ex in E1. assert (B1' : Rabs (R64 (fmul s (f64_of_Z x))) <= bpow radix2 931) by (rewrite E1; apply rnd_bound; [lia|exact B1]).
  assert (B2 : Rabs (R64 (fmul s (f64_of_Z x)) + R64 m) <= bpow radix2 932).
  { apply Rle_trans with (1 := Rabs_triang _ _). assert (bpow radix2 900 <= bpow radix2 931) by (apply bpow_le; lia).
    change 932%Z with (1 + 931)%Z. rewrite bpow_plus. change (bpow radix2 1) with 2. lra. }
  destruct (fadd_correct (fmul s (f64_of_Z x)) m F1 Fm) as (E2 & F2).
  { apply Rle_lt_trans with (bpow radix2 932); [apply rnd_bound; [lia|exact B2]|apply bpow_lt_Max; lia]. }
  split; [rewrite E2, E1; reflexivity|]. split; [exact F2|]. rewrite E2. apply rnd_bound; [lia|exact B2].
Qed.

Lemma hi_correct x : (0 <= x < 2 ^ 31)%Z ->
  R64 (ax_hi sp m d x) = rnd (R64 (ax_lo sp m d x) + R64 (ax_step sp d)) /\ ffinite (ax_hi sp m d x) = true.
Proof.
  intros Hx. destruct step_correct as (_ & Fs & Sb). destruct (lo_correct x Hx) as (_ & Fl & Bl). unfold ax_hi.
  assert (B2 : Rabs (R64 (ax_lo sp m d x) + R64 (ax_step sp d)) <= bpow radix2 933).
  { apply Rle_trans with (1 := Rabs_triang _ _). assert (bpow radix2 900 <= bpow radix2 932) by (apply bpow_le; lia).
    rewrite (Rabs_pos_eq (R64 (ax_step sp d))) by lra.
    change 933%Z with (1 + 932)%Z. rewrite bpow_plus. change (bpow radix2 1) with 2. lra. }
  apply fadd_correct; auto.
  apply Rle_lt_trans with (bpow radix2 933); [apply rnd_bound; [lia|exact B2]|apply bpow_lt_Max; lia].
Qed.

Lemma axis_ordered x : (0 <= x < 2 ^ 31)%Z -> R64 (ax_lo sp m d x) <= R64 (ax_hi sp m d x).
Proof.
  intros Hx. destruct (hi_correct x Hx) as (E & _). destruct step_correct as (_ & _ & Sb). rewrite E.
  rewrite <- (rnd_id (R64 (ax_lo sp m d x))) at 1 by apply Fmt_R64. apply rnd_le. lra.
Qed.
End axis.

(* exact halving *)
Lemma half_exact sp d : ffinite sp = true -> (0 <= d)%Z ->
  (R64 sp = 0 \/ bpow radix2 (-1021) <= Rabs (R64 sp / bpow radix2 d)) -> Fmt (R64 sp / bpow radix2 d).
Proof.
  intros F Hd [E|H].
  - rewrite E. unfold Rdiv. rewrite Rmult_0_l. apply generic_format_0.
  - unfold Rdiv. rewrite <- bpow_opp. apply (mult_bpow_exact_FLT radix2 (-1074) 53); [apply Fmt_R64|].
    assert (N : R64 sp <> 0).
    { intros E. rewrite E in H. unfold Rdiv in H. rewrite Rmult_0_l, Rabs_R0 in H. pose proof (bpow_gt_0 radix2 (-1021)). lra. }
    unfold Rdiv in H. rewrite Rabs_mult, <- bpow_opp, (Rabs_pos_eq (bpow radix2 (- d))) in H by apply bpow_ge_0.
    assert (H' : bpow radix2 (d - 1021) <= Rabs (R64 sp)).
    { replace (d - 1021)%Z with (-1021 + d)%Z by lia. rewrite bpow_plus.
      apply Rmult_le_reg_r with (bpow radix2 (- d)); [apply bpow_gt_0|].
      rewrite Rmult_assoc, <- bpow_plus. replace (d + - d)%Z with 0%Z by lia. change (bpow radix2 0) with 1. lra. }
    pose proof (mag_ge_bpow radix2 (R64 sp) (d - 1021 + 1)) as M. replace (d - 1021 + 1 - 1)%Z with (d - 1021)%Z in M by lia.
    specialize (M H'). lia.
Qed.

Section nest.
Variables (sp m : f64) (d x : Z).
Hypothesis Fsp : ffinite sp = true.
Hypothesis Fm : ffinite m = true.
Hypothesis Psp : 0 <= R64 sp <= bpow radix2 900.
Hypothesis Bm : Rabs (R64 m) <= bpow radix2 900.
Hypothesis Hd : (0 <= d < 900)%Z.
Hypothesis Hx : (0 <= x < 2 ^ 30)%Z.
Hypothesis Hn : R64 sp = 0 \/ bpow radix2 (-1021) <= Rabs (R64 sp / bpow radix2 (d + 1)).

Lemma steps_half : R64 (ax_step sp d) = 2 * R64 (ax_step sp (d + 1)).
Proof.
  destruct (step_correct sp m d Fsp Fm Psp) as (E1 & _); [lia|]. destruct (step_correct sp m (d + 1) Fsp Fm Psp) as (E2 & _); [lia|].
  assert (N1 : Fmt (R64 sp / bpow radix2 (d + 1))) by (apply half_exact; auto; lia).
  assert (N0 : Fmt (R64 sp / bpow radix2 d)).
  { apply half_exact; auto; [lia|]. destruct Hn as [|H]; [now left|right]. apply Rle_trans with (1 := H).
    unfold Rdiv. rewrite !Rabs_mult. apply Rmult_le_compat_l; [apply Rabs_pos|].
    rewrite !Rabs_pos_eq by (left; apply Rinv_0_lt_compat, bpow_gt_0).
    rewrite <- !bpow_opp. apply bpow_le. lia. }
  rewrite E1, E2, !rnd_id by assumption. rewrite bpow_plus. change (bpow radix2 1) with 2.
  pose proof (bpow_gt_0 radix2 d). field. lra.
Qed.

Lemma low_child_lo : R64 (ax_lo sp m (d + 1) (2 * x)) = R64 (ax_lo sp m d x).
Proof.
  destruct (lo_correct sp m (d + 1) Fsp Fm Psp Bm ltac:(lia) (2 * x) ltac:(lia)) as (-> & _).
  destruct (lo_correct sp m d Fsp Fm Psp Bm ltac:(lia) x ltac:(lia)) as (-> & _).
  rewrite steps_half, mult_IZR. f_equal. f_equal. f_equal. ring.
Qed.
Lemma child_lo_ge b : (b = 0 \/ b = 1)%Z -> R64 (ax_lo sp m d x) <= R64 (ax_lo sp m (d + 1) (2 * x + b)).
Proof.
  intros Hb. rewrite <- low_child_lo.
  destruct (lo_correct sp m (d + 1) Fsp Fm Psp Bm ltac:(lia) (2 * x) ltac:(lia)) as (-> & _).
  destruct (lo_correct sp m (d + 1) Fsp Fm Psp Bm ltac:(lia) (2 * x + b) ltac:(lia)) as (-> & _).
  apply rnd_le. apply Rplus_le_compat_r. apply rnd_le.
  destruct (step_correct sp m (d + 1) Fsp Fm Psp) as (_ & _ & Sb); [lia|]. apply Rmult_le_compat_l; [lra|]. apply IZR_le. lia.
Qed.
Lemma low_child_hi : R64 (ax_hi sp m (d + 1) (2 * x)) <= R64 (ax_hi sp m d x).
Proof.
  destruct (hi_correct sp m (d + 1) Fsp Fm Psp Bm ltac:(lia) (2 * x) ltac:(lia)) as (-> & _).
  destruct (hi_correct sp m d Fsp Fm Psp Bm ltac:(lia) x ltac:(lia)) as (-> & _).
  rewrite low_child_lo, steps_half. apply rnd_le. apply Rplus_le_compat_l.
  destruct (step_correct sp m (d + 1) Fsp Fm Psp) as (_ & _ & Sb); [lia|]. lra.
Qed.
End nest.

Lemma fle_finite a b : ffinite a = true -> ffinite b = true -> R64 a <= R64 b -> fle a b = true.
Proof. intros Fa Fb H. apply fle_iff. rewrite !rank_finite by assumption. repeat split; auto; now apply fnan_finite. Qed.

(* the whole box *)

Lemma key_box_ordered k mn mx : sane_header mn mx -> valid k -> (kd k <= 900)%Z ->
  (kx k < 2 ^ 31)%Z -> (ky k < 2 ^ 31)%Z -> (kz k < 2 ^ 31)%Z -> ordered (box_of_key k mn mx).
Proof.
  intros (Fs & Ps & (Fx & Bx) & (Fy & By) & (Fz & Bz)) (V1 & V2 & V3 & V4) Hd Hx Hy Hz. rewrite box_of_key_axes.
  assert (A : forall m x, ffinite m = true -> Rabs (R64 m) <= bpow radix2 900 -> (0 <= x < 2 ^ 31)%Z ->
     let lo := ax_lo (span mn mx) m (kd k) x in let hi := ax_hi (span mn mx) m (kd k) x in
     fnan lo = false /\ fnan hi = false /\ ext lo <= ext hi).
  { intros m x Fm Bm H. cbv zeta.
    destruct (lo_correct (span mn mx) m (kd k) Fs Fm Ps Bm ltac:(lia) x H) as (_ & F1 & _).
    destruct (hi_correct (span mn mx) m (kd k) Fs Fm Ps Bm ltac:(lia) x H) as (_ & F2).
    pose proof (axis_ordered (span mn mx) m (kd k) Fs Fm Ps Bm ltac:(lia) x H).
    unfold ext. rewrite !rank_finite by assumption. repeat split; auto; now apply fnan_finite. }
  destruct (A (vx mn) (kx k) Fx Bx ltac:(lia)) as (a1 & a2 & a3).
  destruct (A (vy mn) (ky k) Fy By ltac:(lia)) as (b1 & b2 & b3).
  destruct (A (vz mn) (kz k) Fz Bz ltac:(lia)) as (c1 & c2 & c3).
  repeat split; assumption.
Qed.

(* children against their parent, axis by axis *)
Lemma child_box k mn mx dir c : sane_header mn mx -> valid k -> children_fit k -> (kd k < 900)%Z ->
  (R64 (span mn mx) = 0 \/ bpow radix2 (-1021) <= Rabs (R64 (span mn mx) / bpow radix2 (kd k + 1))) ->
  bisect k dir = Ok c ->
  let P := box_of_key k mn mx in let C := box_of_key c mn mx in
  (fle (x_min P) (x_min C) = true /\ fle (y_min P) (y_min C) = true /\ fle (z_min P) (z_min C) = true) /\
  (bit dir 0 = 0%Z -> feq (x_min P) (x_min C) = true /\ fle (x_max C) (x_max P) = true) /\
  (bit dir 1 = 0%Z -> feq (y_min P) (y_min C) = true /\ fle (y_max C) (y_max P) = true) /\
  (bit dir 2 = 0%Z -> feq (z_min P) (z_min C) = true /\ fle (z_max C) (z_max P) = true).
Proof.
  intros (Fs & Ps & (Fx & Bx) & (Fy & By) & (Fz & Bz)) V CF Hd Hn Hb.
  rewrite bisect_ok in Hb by assumption. injection Hb as <-. rewrite !box_of_key_axes. cbn [kd kx ky kz x_min y_min z_min x_max y_max z_max].
  destruct V as (V1 & V2 & V3 & V4). destruct CF as (C1 & C2 & C3 & C4).
  assert (A : forall m x b, ffinite m = true -> Rabs (R64 m) <= bpow radix2 900 -> (0 <= x < 2 ^ 30)%Z -> (b = 0 \/ b = 1)%Z ->
     fle (ax_lo (span mn mx) m (kd k) x) (ax_lo (span mn mx) m (kd k + 1) (2 * x + b)) = true /\
     (b = 0%Z -> feq (ax_lo (span mn mx) m (kd k) x) (ax_lo (span mn mx) m (kd k + 1) (2 * x + b)) = true /\
        fle (ax_hi (span mn mx) m (kd k + 1) (2 * x + b)) (ax_hi (span mn mx) m (kd k) x) = true)).
  { intros m x b Fm Bm H Hbb.
    destruct (lo_correct (span mn mx) m (kd k) Fs Fm Ps Bm ltac:(lia) x ltac:(lia)) as (_ & F1 & _).
    destruct (hi_correct (span mn mx) m (kd k) Fs Fm Ps Bm ltac:(lia) x ltac:(lia)) as (_ & F2).
    destruct (lo_correct (span mn mx) m (kd k + 1) Fs Fm Ps Bm ltac:(lia) (2 * x + b) ltac:(lia)) as (_ & F3 & _).
    destruct (hi_correct (span mn mx) m (kd k + 1) Fs Fm Ps Bm ltac:(lia) (2 * x + b) ltac:(lia)) as (_ & F4).
    split; [apply fle_finite; auto; apply child_lo_ge; auto; lia|]. intros ->. rewrite Z.add_0_r in *. split.
    - apply feq_iff. rewrite !rank_finite by assumption. split; [now apply fnan_finite|]. split; [now apply fnan_finite|].
      symmetry. apply low_child_lo; auto; lia.
    - apply fle_finite; auto. apply low_child_hi; auto; lia. }
  destruct (A (vx mn) (kx k) (bit dir 0) Fx Bx ltac:(lia) (bit_01 _ _)) as (a1 & a2).
  destruct (A (vy mn) (ky k) (bit dir 1) Fy By ltac:(lia) (bit_01 _ _)) as (b1 & b2).
  destruct (A (vz mn) (kz k) (bit dir 2) Fz Bz ltac:(lia) (bit_01 _ _)) as (c1 & c2).
  repeat split; auto; intros; try (now apply a2); try (now apply b2); try (now apply c2).
Qed.

(* ---- when the arithmetic is exact, the code's box is the exact cell ---- *)
Lemma exact_axis_box sp m d x e t n :
  ffinite sp = true -> ffinite m = true -> (0 <= d <= 900)%Z -> (0 <= x < 2 ^ 31)%Z -> (-1000 <= e <= 800)%Z ->
  R64 sp = IZR t * bpow radix2 (e + d) -> R64 m = IZR n * bpow radix2 e ->
  (0 <= t)%Z -> (Z.abs n + t * (x + 1) <= 2 ^ 53)%Z -> 0 <= R64 sp <= bpow radix2 900 -> Rabs (R64 m) <= bpow radix2 900 ->
  R64 (ax_lo sp m d x) = cell_lo (R64 m) (R64 sp) d x /\ R64 (ax_hi sp m d x) = cell_hi (R64 m) (R64 sp) d x.
Proof.
  intros Fs Fm Hd Hx He Es Em Ht Hb Ps Bm.
  assert (G : forall z, (Z.abs z <= 2 ^ 53)%Z -> Fmt (IZR z * bpow radix2 e)).
  { intros z Hz. destruct (Z.eq_dec z 0) as [->|Nz].
    - rewrite Rmult_0_l. apply generic_format_0.
    - apply (mult_bpow_exact_FLT radix2 (-1074) 53); [now apply Fmt_IZR|].
      pose proof (mag_ge_bpow radix2 (IZR z) 1) as M. assert (1 <= mag radix2 (IZR z))%Z; [|lia]. apply M.
      change (bpow radix2 (1 - 1)) with 1. rewrite <- abs_IZR. apply IZR_le. lia. }
  assert (St : R64 sp / bpow radix2 d = IZR t * bpow radix2 e).
  { rewrite Es, bpow_plus. pose proof (bpow_gt_0 radix2 d). field. lra. }
  destruct (step_correct sp m d Fs Fm Ps Hd) as (E1 & _ & _). rewrite St, rnd_id in E1 by (apply G; nia).
  destruct (lo_correct sp m d Fs Fm Ps Bm Hd x Hx) as (E2 & _ & _).
  assert (E2' : R64 (ax_lo sp m d x) = IZR (t * x + n) * bpow radix2 e).
  { rewrite E2, E1, Em.
    replace (IZR t * bpow radix2 e * IZR x) with (IZR (t * x) * bpow radix2 e) by (rewrite mult_IZR; ring).
    rewrite (rnd_id (IZR (t * x) * bpow radix2 e)) by (apply G; nia).
    replace (IZR (t * x) * bpow radix2 e + IZR n * bpow radix2 e) with (IZR (t * x + n) * bpow radix2 e) by (rewrite plus_IZR; ring).
    apply rnd_id. apply G. nia. }
  destruct (hi_correct sp m d Fs Fm Ps Bm Hd x Hx) as (E3 & _).
  assert (E3' : R64 (ax_hi sp m d x) = IZR (t * (x + 1) + n) * bpow radix2 e).
  { rewrite E3, E2', E1.
    replace (IZR (t * x + n) * bpow radix2 e + IZR t * bpow radix2 e) with (IZR (t * (x + 1) + n) * bpow radix2 e)
      by (repeat rewrite ?plus_IZR, ?mult_IZR; ring).
    apply rnd_id. apply G. nia. }
  unfold cell_lo, cell_hi. rewrite St, E2', E3', Em. split; repeat rewrite ?plus_IZR, ?mult_IZR; ring.
Qed.

Lemma exact_box k mn mx e t nx ny nz :
  sane_header mn mx -> valid k -> (kd k <= 900)%Z -> (kx k < 2 ^ 31)%Z -> (ky k < 2 ^ 31)%Z -> (kz k < 2 ^ 31)%Z ->
  (-1000 <= e <= 800)%Z -> (0 <= t)%Z -> R64 (span mn mx) = IZR t * bpow radix2 (e + kd k) ->
  R64 (vx mn) = IZR nx * bpow radix2 e -> R64 (vy mn) = IZR ny * bpow radix2 e -> R64 (vz mn) = IZR nz * bpow radix2 e ->
  (Z.abs nx + t * (kx k + 1) <= 2 ^ 53)%Z -> (Z.abs ny + t * (ky k + 1) <= 2 ^ 53)%Z -> (Z.abs nz + t * (kz k + 1) <= 2 ^ 53)%Z ->
  forall x y z, mem (box_of_key k mn mx) x y z <->
    in_cell k (R64 (vx mn)) (R64 (vy mn)) (R64 (vz mn)) (R64 (span mn mx)) x y z.
Proof.
  intros (Fs & Ps & (Fx & Bx) & (Fy & By) & (Fz & Bz)) (V1 & V2 & V3 & V4) Hd Hx Hy Hz He Ht Es Ex Ey Ez Gx Gy Gz x y z.
  rewrite box_of_key_axes. unfold mem, in_cell, ext. cbn [x_min y_min z_min x_max y_max z_max].
  assert (A : forall m i n, ffinite m = true -> Rabs (R64 m) <= bpow radix2 900 -> (0 <= i < 2 ^ 31)%Z ->
    R64 m = IZR n * bpow radix2 e -> (Z.abs n + t * (i + 1) <= 2 ^ 53)%Z ->
    rank (ax_lo (span mn mx) m (kd k) i) = cell_lo (R64 m) (R64 (span mn mx)) (kd k) i /\
    rank (ax_hi (span mn mx) m (kd k) i) = cell_hi (R64 m) (R64 (span mn mx)) (kd k) i).
  { intros m i n Fm Bm Hi Em G.
    destruct (lo_correct (span mn mx) m (kd k) Fs Fm Ps Bm ltac:(lia) i Hi) as (_ & F1 & _).
    destruct (hi_correct (span mn mx) m (kd k) Fs Fm Ps Bm ltac:(lia) i Hi) as (_ & F2).
    rewrite !rank_finite by assumption. apply (exact_axis_box (span mn mx) m (kd k) i e t n); auto; lia. }
  destruct (A (vx mn) (kx k) nx Fx Bx ltac:(lia) Ex Gx) as (-> & ->).
  destruct (A (vy mn) (ky k) ny Fy By ltac:(lia) Ey Gy) as (-> & ->).
  destruct (A (vz mn) (kz k) nz Fz Bz ltac:(lia) Ez Gz) as (-> & ->). tauto.
Qed.

(* root box: lower corner is the header's, upper corner is at most half an ulp off *)
Lemma root_lo sp m : ffinite sp = true -> ffinite m = true -> 0 <= R64 sp <= bpow radix2 900 -> Rabs (R64 m) <= bpow radix2 900 ->
  R64 (ax_lo sp m 0 0) = R64 m /\ R64 (ax_hi sp m 0 0) = rnd (R64 m + R64 sp).
Proof.
  intros Fs Fm Ps Bm. assert (Hx : (0 <= 0 < 2 ^ 31)%Z) by lia. assert (Hd : (0 <= 0 <= 900)%Z) by lia.
  destruct (step_correct sp m 0 Fs Fm Ps Hd) as (E1 & _ & _).
  change (bpow radix2 0) with 1 in E1. unfold Rdiv in E1. rewrite Rinv_1, Rmult_1_r, rnd_id in E1 by apply Fmt_R64.
  destruct (lo_correct sp m 0 Fs Fm Ps Bm Hd 0 Hx) as (E2 & _ & _).
  rewrite Rmult_0_r, round_0, Rplus_0_l, rnd_id in E2 by (try apply Fmt_R64; typeclasses eauto).
  destruct (hi_correct sp m 0 Fs Fm Ps Bm Hd 0 Hx) as (E3 & _). rewrite E2, E1 in E3. auto.
Qed.


Lemma root_box mn mx : sane_header mn mx ->
  let B := box_of_key root_key mn mx in
  R64 (x_min B) = R64 (vx mn) /\ R64 (y_min B) = R64 (vy mn) /\ R64 (z_min B) = R64 (vz mn) /\
  (ffinite (vx mx) = true -> ffinite (vy mx) = true -> ffinite (vz mx) = true -> axis_exact mn mx ->
   R64 (vx mn) <= R64 (vx mx) -> R64 (vy mn) <= R64 (vy mx) -> R64 (vz mn) <= R64 (vz mx) ->
   box_contains B (mkBox (vx mn) (vy mn) (vz mn) (vx mx) (vy mx) (vz mx)) = true).
Proof.
  intros (Fs & Ps & (Fx & Bx) & (Fy & By) & (Fz & Bz)). cbv zeta. rewrite box_of_key_axes. cbn [root_key kd kx ky kz x_min y_min z_min x_max y_max z_max].
  destruct (root_lo _ _ Fs Fx Ps Bx) as (X1 & X2). destruct (root_lo _ _ Fs Fy Ps By) as (Y1 & Y2). destruct (root_lo _ _ Fs Fz Ps Bz) as (Z1 & Z2).
  split; [exact X1|]. split; [exact Y1|]. split; [exact Z1|].
  intros FX FY FZ (A1 & A2 & A3) O1 O2 O3. unfold box_contains, fge. cbn [x_min y_min z_min x_max y_max z_max].
  assert (L : forall m, ffinite m = true -> Rabs (R64 m) <= bpow radix2 900 -> ffinite (ax_lo (span mn mx) m 0 0) = true /\ ffinite (ax_hi (span mn mx) m 0 0) = true).
  { intros m Fm Bm. destruct (lo_correct (span mn mx) m 0 Fs Fm Ps Bm ltac:(lia) 0 ltac:(lia)) as (_ & F1 & _).
    destruct (hi_correct (span mn mx) m 0 Fs Fm Ps Bm ltac:(lia) 0 ltac:(lia)) as (_ & F2). auto. }
  destruct (L _ Fx Bx), (L _ Fy By), (L _ Fz Bz).
  assert (U : forall a b, R64 b - R64 a <= R64 (span mn mx) -> R64 b <= rnd (R64 a + R64 (span mn mx))).
  { intros a b H'. rewrite <- (rnd_id (R64 b)) at 1 by apply Fmt_R64. apply rnd_le. lra. }
  rewrite !fle_finite; auto; rewrite ?X1, ?X2, ?Y1, ?Y2, ?Z1, ?Z2; auto; lra.
Qed.

(* constructors *)
Lemma flt_maxval : flt fmaxval (fopp fmaxval) = false.
Proof. vm_compute. reflexivity. Qed.
Lemma max_bounds z : ffinite z = true -> fle (fopp fmaxval) z = true /\ fle z fmaxval = true.
Proof.
  intros F. assert (Fm : ffinite fmaxval = true) by (vm_compute; reflexivity).
  assert (Fo : ffinite (fopp fmaxval) = true) by (vm_compute; reflexivity).
  assert (B : Rabs (R64 z) <= R64 fmaxval).
  { replace (R64 fmaxval) with (bpow radix2 1024 - bpow radix2 (1024 - 53)).
    - apply abs_B2R_le_emax_minus_prec. reflexivity.
    - unfold fmaxval, f64_lit.
      pose proof (binary_normalize_correct 53 1024 eq_refl eq_refl mode_NE (2 ^ 53 - 1) 971 false) as C.
      assert (G : Fmt (F2R (Float radix2 (2 ^ 53 - 1) 971))).
      { apply generic_format_FLT. exists (Float radix2 (2 ^ 53 - 1) 971); [reflexivity|vm_compute; reflexivity|vm_compute; discriminate]. }
      assert (V : F2R (Float radix2 (2 ^ 53 - 1) 971) = bpow radix2 1024 - bpow radix2 (1024 - 53)).
      { unfold F2R. cbn [Fnum Fexp]. rewrite minus_IZR. change 1024%Z with (53 + 971)%Z at 1. rewrite bpow_plus.
        change (1024 - 53)%Z with 971%Z. change (bpow radix2 53) with (IZR (2 ^ 53)). ring. }
      cbn zeta in C. rewrite V in *.
      assert (Rn : round radix2 (SpecFloat.fexp 53 1024) (round_mode mode_NE) (bpow radix2 1024 - bpow radix2 (1024 - 53)) = bpow radix2 1024 - bpow radix2 (1024 - 53)).
      { apply round_generic; [typeclasses eauto|exact G]. }
      rewrite Rn in C. rewrite Rlt_bool_true in C; [symmetry; apply C|].
      pose proof (bpow_gt_0 radix2 (1024 - 53)). assert (bpow radix2 (1024 - 53) < bpow radix2 1024) by (apply bpow_lt; lia).
      rewrite Rabs_pos_eq by lra. lra. }
  assert (O : R64 (fopp fmaxval) = - R64 fmaxval) by apply B2R_Bopp.
  pose proof (Rle_abs (R64 z)). pose proof (Rle_abs (- R64 z)) as N. rewrite Rabs_Ropp in N.
  split; apply fle_finite; auto; rewrite ?O; lra.
Qed.

Lemma box_of_list_lengths l : length l <> 4%nat -> length l <> 6%nat -> box_of_list l = Throw.
Proof. intros A B. destruct l as [|? [|? [|? [|? [|? [|? [|? ?]]]]]]]; cbn in *; auto; exfalso; auto. Qed.

Lemma box2_spec x0 y0 x1 y1 :
  (flt x1 x0 = true \/ flt y1 y0 = true) /\ box2 x0 y0 x1 y1 = Throw \/
  (flt x1 x0 = false /\ flt y1 y0 = false) /\ exists b, box2 x0 y0 x1 y1 = Ok b /\
     x_min b = x0 /\ y_min b = y0 /\ x_max b = x1 /\ y_max b = y1 /\
     forall z, ffinite z = true -> fle (z_min b) z = true /\ fle z (z_max b) = true.
Proof.
  unfold box2, box3. rewrite flt_maxval. destruct (flt x1 x0), (flt y1 y0); cbn [orb]; auto.
  right. split; auto. eexists. split; [reflexivity|]. cbn. repeat split; auto; now apply max_bounds.
Qed.

Lemma key_relations k mn mx b : ordered (box_of_key k mn mx) -> ordered b ->
  (key_intersects k mn mx b = true <-> exists x y z, mem (box_of_key k mn mx) x y z /\ mem b x y z) /\
  (key_contains k mn mx b = true <-> forall x y z, mem b x y z -> mem (box_of_key k mn mx) x y z) /\
  (key_within k mn mx b = true <-> forall x y z, mem (box_of_key k mn mx) x y z -> mem b x y z) /\
  (key_crosses k mn mx b = true <->
     (exists x y z, mem (box_of_key k mn mx) x y z /\ mem b x y z) /\
     exists x y z, mem (box_of_key k mn mx) x y z /\ ~ mem b x y z) /\
  (key_within k mn mx b = true -> key_intersects k mn mx b = true).
Proof.
  intros Oa Ob. unfold key_intersects, key_contains, key_within, key_crosses, box_within.
  split; [now apply intersects_spec|]. split; [now apply contains_spec|]. split; [now apply contains_spec|].
  split; [|now apply within_intersects]. rewrite andb_true_iff, negb_true_iff, intersects_spec by assumption.
  split; intros (I & C); (split; [exact I|]).
  - destruct Oa as (Na & oa1 & oa2 & oa3). destruct Ob as ((b1 & b2 & b3 & b4 & b5 & b6) & ob1 & ob2 & ob3). 
    pose proof Na as (a1 & a2 & a3 & a4 & a5 & a6). set (B := box_of_key k mn mx) in *. clearbody B.
    unfold box_contains, fge in C.
    assert (Q : forall x y, fnan x = false -> fnan y = false -> fle x y = false -> ext y < ext x).
    { intros x y Nx Ny Hf. destruct (Rle_or_lt (ext x) (ext y)) as [L|]; auto. apply fle_ext in L; auto. congruence. }
    repeat rewrite andb_false_iff in C.
    assert (L1 : mem B (ext (x_min B)) (ext (y_min B)) (ext (z_min B))) by (unfold mem; lra).
    assert (L2 : mem B (ext (x_max B)) (ext (y_max B)) (ext (z_max B))) by (unfold mem; lra).
    destruct C as [[[[[C|C]|C]|C]|C]|C]; apply Q in C; auto;
      (exists (ext (x_min B)), (ext (y_min B)), (ext (z_min B)); split; [exact L1|]; unfold mem; lra) ||
      (exists (ext (x_max B)), (ext (y_max B)), (ext (z_max B)); split; [exact L2|]; unfold mem; lra).
  - destruct C as (x & y & z & M & N). destruct (box_contains b (box_of_key k mn mx)) eqn:E; auto.
    exfalso. apply N. exact (proj1 (contains_spec b _ Ob Oa) E _ _ _ M).
Qed.
