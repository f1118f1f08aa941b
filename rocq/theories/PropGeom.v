(* PropGeom.v - property theorems C19, C21, C22, C23, C63 *)
From Verif Require Import BaseFacts ModelFloat ModelKey SpecKey ModelGeom ProofFloat SpecGeom ProofGeom.
From Coq Require Import Reals Lra.
From Flocq Require Import Core IEEE754.BinarySingleNaN IEEE754.Binary.
Open Scope Z_scope.

(* ---- C19: bounds tracking over any sequence of points ---- *)
Theorem C19_bounds_track_points : forall ps mn mx mn' mx', no_nan_v mn -> no_nan_v mx -> Forall no_nan_v ps ->
  fold_left update_bounds ps (mn, mx) = (mn', mx') ->
  (fle (vx mn') (vx mn) = true /\ fle (vy mn') (vy mn) = true /\ fle (vz mn') (vz mn) = true) /\
  (fle (vx mx) (vx mx') = true /\ fle (vy mx) (vy mx') = true /\ fle (vz mx) (vz mx') = true) /\
  (forall p, In p ps -> box_contains_pt (mkBox (vx mn') (vy mn') (vz mn') (vx mx') (vy mx') (vz mx')) p = true) /\
  ((vx mn' = vx mn \/ exists p, In p ps /\ vx mn' = vx p) /\ (vy mn' = vy mn \/ exists p, In p ps /\ vy mn' = vy p) /\
   (vz mn' = vz mn \/ exists p, In p ps /\ vz mn' = vz p) /\
   (vx mx' = vx mx \/ exists p, In p ps /\ vx mx' = vx p) /\ (vy mx' = vy mx \/ exists p, In p ps /\ vy mx' = vy p) /\
   (vz mx' = vz mx \/ exists p, In p ps /\ vz mx' = vz p)).
Proof. exact bounds_spec. Qed.
Print Assumptions C19_bounds_track_points.

Definition v3 (a b c : Z) : vec3 := mkVec (f64_of_Z a) (f64_of_Z b) (f64_of_Z c).
Definition box_is (b : box) (x0 y0 z0 x1 y1 z1 : f64) : bool :=
  feq (x_min b) x0 && feq (y_min b) y0 && feq (z_min b) z0 && feq (x_max b) x1 && feq (y_max b) y1 && feq (z_max b) z1.
Example C19_nonvacuous : exists mn mx, no_nan_v mn /\ no_nan_v mx /\ Forall no_nan_v [v3 5 (-7) 1; v3 2 9 1] /\
  let r := fold_left update_bounds [v3 5 (-7) 1; v3 2 9 1] (mn, mx) in
  vec3_eqb (fst r) (v3 0 (-7) 0) = true /\ vec3_eqb (snd r) (v3 5 9 1) = true.
Proof. exists (v3 0 0 0), (v3 0 0 0). repeat (split || constructor); vm_compute; reflexivity. Qed.

(* ---- C21: box constructors and predicates ---- *)
(* the six-number, two-vector and two-dimensional constructors throw exactly on a max below its min *)
Theorem C21_constructor : forall x0 y0 z0 x1 y1 z1,
  (flt x1 x0 = true \/ flt y1 y0 = true \/ flt z1 z0 = true) /\ box3 x0 y0 z0 x1 y1 z1 = Throw \/
  (flt x1 x0 = false /\ flt y1 y0 = false /\ flt z1 z0 = false) /\ box3 x0 y0 z0 x1 y1 z1 = Ok (mkBox x0 y0 z0 x1 y1 z1).
Proof. exact box3_spec. Qed.
Print Assumptions C21_constructor.

Theorem C21_constructors_agree : forall x0 y0 z0 x1 y1 z1,
  box_of_vecs (mkVec x0 y0 z0) (mkVec x1 y1 z1) = box3 x0 y0 z0 x1 y1 z1 /\
  box_of_list [x0; y0; z0; x1; y1; z1] = box3 x0 y0 z0 x1 y1 z1 /\
  box_of_list [x0; y0; x1; y1] = box2 x0 y0 x1 y1.
Proof. intros. repeat split; reflexivity. Qed.
Print Assumptions C21_constructors_agree.

Theorem C21_two_dimensional_constructor : forall x0 y0 x1 y1,
  (flt x1 x0 = true \/ flt y1 y0 = true) /\ box2 x0 y0 x1 y1 = Throw \/
  (flt x1 x0 = false /\ flt y1 y0 = false) /\ exists b, box2 x0 y0 x1 y1 = Ok b /\
     x_min b = x0 /\ y_min b = y0 /\ x_max b = x1 /\ y_max b = y1 /\
     forall z, ffinite z = true -> fle (z_min b) z = true /\ fle z (z_max b) = true.
Proof. exact box2_spec. Qed.
Print Assumptions C21_two_dimensional_constructor.

Theorem C21_list_constructor_rejects_other_lengths : forall l,
  length l <> 4%nat -> length l <> 6%nat -> box_of_list l = Throw.
Proof. exact box_of_list_lengths. Qed.
Print Assumptions C21_list_constructor_rejects_other_lengths.

(* a constructed box with no NaN is ordered, and every ordered box can be constructed *)
Theorem C21_constructed_iff_ordered : forall b, no_nan b ->
  (box3 (x_min b) (y_min b) (z_min b) (x_max b) (y_max b) (z_max b) = Ok b <-> ordered b).
Proof. exact box3_ordered. Qed.
Print Assumptions C21_constructed_iff_ordered.

Theorem C21_contains_point : forall b v, no_nan b -> no_nan_v v ->
  (box_contains_pt b v = true <-> mem b (ext (vx v)) (ext (vy v)) (ext (vz v))).
Proof. exact contains_pt_spec. Qed.
Print Assumptions C21_contains_point.

Theorem C21_contains_box : forall a b, ordered a -> ordered b ->
  (box_contains a b = true <-> forall x y z, mem b x y z -> mem a x y z).
Proof. exact contains_spec. Qed.
Print Assumptions C21_contains_box.

Theorem C21_intersects : forall a b, ordered a -> ordered b ->
  (box_intersects a b = true <-> exists x y z, mem a x y z /\ mem b x y z).
Proof. exact intersects_spec. Qed.
Print Assumptions C21_intersects.

Theorem C21_relations :
  (forall a b, box_intersects a b = box_intersects b a) /\
  (forall a b, box_within a b = box_contains b a) /\
  (forall a, no_nan a -> box_within a a = true) /\
  (forall a b c, box_within a b = true -> box_within b c = true -> box_within a c = true).
Proof. exact (conj intersects_sym (conj (fun a b => eq_refl) (conj within_refl within_trans))). Qed.
Print Assumptions C21_relations.

Example C21_nonvacuous : exists a b, ordered a /\ ordered b /\ box_intersects a b = true /\ box_contains a b = false.
Proof.
  exists (mkBox (f64_of_Z 0) (f64_of_Z 0) (f64_of_Z 0) (f64_of_Z 2) (f64_of_Z 2) (f64_of_Z 2)),
         (mkBox (f64_of_Z 1) (f64_of_Z 1) (f64_of_Z 1) (f64_of_Z 3) (f64_of_Z 3) (f64_of_Z 3)).
  split; [|split].
  1,2: apply box3_ordered; [repeat split; vm_compute; reflexivity|];
       match goal with |- box3 _ _ _ _ _ _ = Ok ?b => destruct (box3_spec (x_min b) (y_min b) (z_min b) (x_max b) (y_max b) (z_max b)) as [([H|[H|H]] & _)|(_ & E)]; [exfalso; vm_compute in H; discriminate H..|exact E] end.
  split; vm_compute; reflexivity.
Qed.

(* ---- C22: octree boxes ---- *)
(* exact arithmetic: a point is in a key's cell exactly when it is in the cell of one of its children,
   the two children along an axis share the middle face, and neighbours share a face *)
Theorem C22_exact_children_tile_parent : forall k cs ax ay az s x y z, (0 <= s)%R -> valid k -> children_fit k ->
  get_children k = Ok cs ->
  (in_cell k ax ay az s x y z <-> exists c, In c cs /\ in_cell c ax ay az s x y z).
Proof. exact children_tile. Qed.
Print Assumptions C22_exact_children_tile_parent.

Theorem C22_exact_faces : forall m s d x,
  cell_lo m s (d + 1) (2 * x) = cell_lo m s d x /\
  cell_hi m s (d + 1) (2 * x) = cell_lo m s (d + 1) (2 * x + 1) /\
  cell_hi m s (d + 1) (2 * x + 1) = cell_hi m s d x /\
  cell_hi m s d x = cell_lo m s d (x + 1).
Proof. intros m s d x. destruct (cell_split m s d x) as (A & B & C). exact (conj A (conj B (conj C eq_refl))). Qed.
Print Assumptions C22_exact_faces.

(* the code's box is the exact cell whenever bounds and span are on a grid that 53 bits can carry *)
Theorem C22_binary64_exact_on_grids : forall k mn mx e t nx ny nz,
  sane_header mn mx -> valid k -> kd k <= 900 -> kx k < 2 ^ 31 -> ky k < 2 ^ 31 -> kz k < 2 ^ 31 ->
  -1000 <= e <= 800 -> 0 <= t -> R64 (span mn mx) = (IZR t * bpow radix2 (e + kd k))%R ->
  R64 (vx mn) = (IZR nx * bpow radix2 e)%R -> R64 (vy mn) = (IZR ny * bpow radix2 e)%R -> R64 (vz mn) = (IZR nz * bpow radix2 e)%R ->
  Z.abs nx + t * (kx k + 1) <= 2 ^ 53 -> Z.abs ny + t * (ky k + 1) <= 2 ^ 53 -> Z.abs nz + t * (kz k + 1) <= 2 ^ 53 ->
  forall x y z, mem (box_of_key k mn mx) x y z <->
    in_cell k (R64 (vx mn)) (R64 (vy mn)) (R64 (vz mn)) (R64 (span mn mx)) x y z.
Proof. exact exact_box. Qed.
Print Assumptions C22_binary64_exact_on_grids.

(* binary64, any bounds: key boxes are ordered; a child never starts below its parent; on every axis
   where it is the lower half it starts at the same place and stays inside *)
Theorem C22_binary64_boxes_ordered : forall k mn mx, sane_header mn mx -> valid k -> kd k <= 900 ->
  kx k < 2 ^ 31 -> ky k < 2 ^ 31 -> kz k < 2 ^ 31 -> ordered (box_of_key k mn mx).
Proof. exact key_box_ordered. Qed.
Print Assumptions C22_binary64_boxes_ordered.

Theorem C22_binary64_lower_children_inside : forall k mn mx dir c,
  sane_header mn mx -> valid k -> children_fit k -> kd k < 900 ->
  (R64 (span mn mx) = 0 \/ bpow radix2 (-1021) <= Rabs (R64 (span mn mx) / bpow radix2 (kd k + 1)))%R ->
  bisect k dir = Ok c ->
  let P := box_of_key k mn mx in let C := box_of_key c mn mx in
  (fle (x_min P) (x_min C) = true /\ fle (y_min P) (y_min C) = true /\ fle (z_min P) (z_min C) = true) /\
  (bit dir 0 = 0 -> feq (x_min P) (x_min C) = true /\ fle (x_max C) (x_max P) = true) /\
  (bit dir 1 = 0 -> feq (y_min P) (y_min C) = true /\ fle (y_max C) (y_max P) = true) /\
  (bit dir 2 = 0 -> feq (z_min P) (z_min C) = true /\ fle (z_max C) (z_max P) = true).
Proof. exact child_box. Qed.
Print Assumptions C22_binary64_lower_children_inside.

Definition c22_mn : vec3 := mkVec (f64_lit 0x16666666666666 (-52)) (f64_of_Z 0) (f64_of_Z 0).
Definition c22_mx : vec3 := mkVec (f64_lit 0x18e66666666666 (-47)) (f64_of_Z 0) (f64_of_Z 0).
(* header bounds 1.4 .. 49.8: the upper child of key (1,0,0,0) reaches beyond its parent, so a point
   lies in the child's box and not in the parent's *)
Theorem C22_binary64_upper_child_overhang_refuted : exists mn mx k c v,
  valid k /\ bisect k 1 = Ok c /\ box_within (box_of_key c mn mx) (box_of_key k mn mx) = false /\
  box_contains_pt (box_of_key c mn mx) v = true /\ box_contains_pt (box_of_key k mn mx) v = false.
Proof.
  exists c22_mn, c22_mx, (mkKey 1 0 0 0), (mkKey 2 1 0 0), (mkVec (fadd (fadd (fmul (fdiv (span c22_mn c22_mx) (fpow2 2)) (f64_of_Z 1)) (vx c22_mn)) (fdiv (span c22_mn c22_mx) (fpow2 2))) (f64_of_Z 0) (f64_of_Z 0)).
  split; [cbn; unfold valid; cbn; lia|]. split; [reflexivity|]. split; [vm_compute; reflexivity|]. split; vm_compute; reflexivity.
Qed.
Print Assumptions C22_binary64_upper_child_overhang_refuted.

Definition c22g_mn : vec3 := mkVec (f64_lit (-0x10249249249249) (-46)) (f64_of_Z 0) (f64_of_Z 0).
Definition c22g_mx : vec3 := mkVec (f64_lit 0x17492492492494 (-48)) (f64_of_Z 0) (f64_of_Z 0).
(* binary64: two sibling boxes may leave a gap containing a double that lies in the parent's box *)
Theorem C22_binary64_children_gap_refuted : exists mn mx k c0 c1 v,
  valid k /\ bisect k 0 = Ok c0 /\ bisect k 1 = Ok c1 /\ box_contains_pt (box_of_key k mn mx) v = true /\
  box_contains_pt (box_of_key c0 mn mx) v = false /\ box_contains_pt (box_of_key c1 mn mx) v = false.
Proof.
  exists c22g_mn, c22g_mx, (mkKey 2 2 0 0), (mkKey 3 4 0 0), (mkKey 3 5 0 0),
   (mkVec (fdiv (fadd (x_max (box_of_key (mkKey 3 4 0 0) c22g_mn c22g_mx)) (x_min (box_of_key (mkKey 3 5 0 0) c22g_mn c22g_mx))) (f64_of_Z 2)) (f64_of_Z 0) (f64_of_Z 0)).
  split; [unfold valid; cbn; lia|]. split; [reflexivity|]. split; [reflexivity|]. repeat split; vm_compute; reflexivity.
Qed.
Print Assumptions C22_binary64_children_gap_refuted.

Lemma R64_by_eq a b r : ffinite b = true /\ R64 b = r -> feq a b = true -> ffinite a = true -> R64 a = r.
Proof.
  intros (Fb & Eb) H Fa. apply feq_iff in H. destruct H as (_ & _ & H). rewrite !rank_finite in H by assumption. congruence.
Qed.
Lemma R64_Z z : Z.abs z <= 2 ^ 53 -> ffinite (f64_of_Z z) = true /\ R64 (f64_of_Z z) = IZR z.
Proof. intros H. destruct (f64_of_Z_exact z H). auto. Qed.
Lemma sane_ex : sane_header (v3 0 0 0) (v3 8 4 2).
Proof.
  assert (Hb : (8 <= bpow radix2 900)%R) by (change 8%R with (bpow radix2 3); apply bpow_le; lia).
  assert (F : ffinite (span (v3 0 0 0) (v3 8 4 2)) = true) by (vm_compute; reflexivity).
  assert (E : R64 (span (v3 0 0 0) (v3 8 4 2)) = 8%R).
  { apply (R64_by_eq _ (f64_of_Z 8)); [apply R64_Z; lia|vm_compute; reflexivity|exact F]. }
  unfold sane_header. rewrite E. destruct (R64_Z 0 ltac:(lia)) as (F0 & E0). cbn [v3 vx vy vz]. rewrite E0, Rabs_R0.
  repeat split; auto; lra.
Qed.
Example C22_nonvacuous : exists k mn mx e t, sane_header mn mx /\ valid k /\ children_fit k /\
  R64 (span mn mx) = (IZR t * bpow radix2 (e + kd k))%R /\ (t * (kx k + 1) <= 2 ^ 53)%Z.
Proof.
  exists (mkKey 3 5 1 0), (v3 0 0 0), (v3 8 4 2), 0, 1. split; [exact sane_ex|].
  split; [unfold valid; cbn; lia|]. split; [unfold children_fit; cbn; lia|]. split; [|cbn; lia].
  cbn [kd]. change (bpow radix2 (0 + 3)) with 8%R. rewrite Rmult_1_l.
  apply (R64_by_eq _ (f64_of_Z 8)); [apply R64_Z; lia|vm_compute; reflexivity|vm_compute; reflexivity].
Qed.

(* ---- C23: key/box relations ---- *)
(* b is a query box; the key's box is Box(key, header) *)
Theorem C23_key_relations : forall k mn mx b, ordered (box_of_key k mn mx) -> ordered b ->
  (key_intersects k mn mx b = true <-> exists x y z, mem (box_of_key k mn mx) x y z /\ mem b x y z) /\
  (key_contains k mn mx b = true <-> forall x y z, mem b x y z -> mem (box_of_key k mn mx) x y z) /\
  (key_within k mn mx b = true <-> forall x y z, mem (box_of_key k mn mx) x y z -> mem b x y z) /\
  (key_crosses k mn mx b = true <->
     (exists x y z, mem (box_of_key k mn mx) x y z /\ mem b x y z) /\
     exists x y z, mem (box_of_key k mn mx) x y z /\ ~ mem b x y z) /\
  (key_within k mn mx b = true -> key_intersects k mn mx b = true).
Proof. exact key_relations. Qed.
Print Assumptions C23_key_relations.

Theorem C23_key_contains_point : forall k mn mx v, no_nan (box_of_key k mn mx) -> no_nan_v v ->
  (key_contains_pt k mn mx v = true <-> mem (box_of_key k mn mx) (ext (vx v)) (ext (vy v)) (ext (vz v))).
Proof. intros k mn mx v. exact (contains_pt_spec (box_of_key k mn mx) v). Qed.
Print Assumptions C23_key_contains_point.

Example C23_nonvacuous : exists k mn mx b, ordered (box_of_key k mn mx) /\ ordered b /\ key_crosses k mn mx b = true.
Proof.
  exists (mkKey 1 0 0 0), (v3 0 0 0), (v3 8 4 2), (mkBox (f64_of_Z 1) (f64_of_Z 1) (f64_of_Z 1) (f64_of_Z 3) (f64_of_Z 3) (f64_of_Z 3)).
  split; [|split].
  - apply key_box_ordered; [exact sane_ex|unfold valid; cbn; lia|cbn; lia..].
  - apply box3_ordered; [repeat split; vm_compute; reflexivity|].
    match goal with |- box3 _ _ _ _ _ _ = Ok ?b => destruct (box3_spec (x_min b) (y_min b) (z_min b) (x_max b) (y_max b) (z_max b)) as [([H|[H|H]] & _)|(_ & E)]; [exfalso; vm_compute in H; discriminate H..|exact E] end.
  - vm_compute. reflexivity.
Qed.

(* ---- C63: the root voxel against the header bounds ---- *)
Theorem C63_root_box_starts_at_header_min : forall mn mx, sane_header mn mx ->
  let B := box_of_key root_key mn mx in
  R64 (x_min B) = R64 (vx mn) /\ R64 (y_min B) = R64 (vy mn) /\ R64 (z_min B) = R64 (vz mn).
Proof. intros mn mx H. destruct (root_box mn mx H) as (A & B & C & _). exact (conj A (conj B C)). Qed.
Print Assumptions C63_root_box_starts_at_header_min.

(* contains the whole header box when the computed span is not below the exact one *)
Theorem C63_root_box_contains_header_box : forall mn mx, sane_header mn mx ->
  ffinite (vx mx) = true -> ffinite (vy mx) = true -> ffinite (vz mx) = true -> axis_exact mn mx ->
  (R64 (vx mn) <= R64 (vx mx))%R -> (R64 (vy mn) <= R64 (vy mx))%R -> (R64 (vz mn) <= R64 (vz mx))%R ->
  box_contains (box_of_key root_key mn mx) (mkBox (vx mn) (vy mn) (vz mn) (vx mx) (vy mx) (vz mx)) = true.
Proof. intros mn mx H. destruct (root_box mn mx H) as (_ & _ & _ & D). exact D. Qed.
Print Assumptions C63_root_box_contains_header_box.

Definition c63_mn : vec3 := mkVec (f64_lit (-0x15955555555555) (-46)) (f64_of_Z 0) (f64_of_Z 0).
Definition c63_mx : vec3 := mkVec (f64_of_Z 128) (f64_of_Z 0) (f64_of_Z 0).
(* rounding of the span can leave the header's max outside the root voxel *)
Theorem C63_root_box_misses_header_max_refuted : exists mn mx b,
  header_bounds mn mx = Ok b /\ box_contains b b = true /\ box_contains_pt b mx = true /\
  box_contains_pt (box_of_key root_key mn mx) mx = false.
Proof.
  exists c63_mn, c63_mx, (mkBox (vx c63_mn) (vy c63_mn) (vz c63_mn) (vx c63_mx) (vy c63_mx) (vz c63_mx)).
  split; [|repeat split; vm_compute; reflexivity].
  unfold header_bounds, box_of_vecs.
  destruct (box3_spec (vx c63_mn) (vy c63_mn) (vz c63_mn) (vx c63_mx) (vy c63_mx) (vz c63_mx)) as [([H|[H|H]] & _)|(_ & E)];
    [exfalso; vm_compute in H; discriminate H..|exact E].
Qed.
Print Assumptions C63_root_box_misses_header_max_refuted.

(* the span is the largest of the three extents, each max - min rounded to binary64 *)
Definition usual_axis (a b : f64) : Prop := ffinite a = true /\ ffinite b = true /\ (Rabs (R64 a) <= bpow radix2 899)%R /\ (Rabs (R64 b) <= bpow radix2 899)%R /\ (R64 a <= R64 b)%R.
Definition usual_bounds (mn mx : vec3) : Prop := usual_axis (vx mn) (vx mx) /\ usual_axis (vy mn) (vy mx) /\ usual_axis (vz mn) (vz mx).
Definition extent_of (a b : f64) : R := round radix2 (FLT_exp (-1074) 53) ZnearestE (R64 b - R64 a).
Lemma usual_extent a b : usual_axis a b -> ffinite (fsub b a) = true /\ R64 (fsub b a) = extent_of a b /\ (0 <= extent_of a b <= bpow radix2 900)%R.
Proof.
  intros (Fa & Fb & A & B & L). assert (AB : (0 <= R64 b - R64 a <= bpow radix2 900)%R).
  { change 900%Z with (899 + 1)%Z. rewrite bpow_plus. change (bpow radix2 1) with 2%R. apply Rabs_le_inv in A, B. lra. }
  assert (F : (0 <= extent_of a b <= bpow radix2 900)%R).
  { unfold extent_of. change (FLT_exp (-1074) 53) with fexp64. split.
    - rewrite <- (round_0 radix2 fexp64 ZnearestE). apply rnd_le. lra.
    - rewrite <- (rnd_id (bpow radix2 900)); [apply rnd_le; lra|]. apply generic_format_bpow. vm_compute. discriminate. }
  destruct (fsub_correct b a Fb Fa) as (E & FF).
  { change (Rabs (extent_of a b) < MaxR)%R. rewrite Rabs_pos_eq by lra. apply (Rle_lt_trans _ (bpow radix2 900)); [apply F|]. exact (bpow_lt radix2 900 1024 eq_refl). }
  auto.
Qed.
Lemma fmax_largest a b : ffinite a = true -> ffinite b = true -> ffinite (fmax a b) = true /\ R64 (fmax a b) = Rmax (R64 a) (R64 b).
Proof.
  intros A B. assert (NA : fnan a = false /\ fnan b = false) by (destruct a, b; try discriminate; auto). unfold fmax. pose proof (flt_rank a b (proj1 NA) (proj2 NA)) as L. rewrite !rank_finite in L by assumption. destruct (flt a b).
  - split; [exact B|]. symmetry. apply Rmax_right. apply Rlt_le. now apply L.
  - split; [exact A|]. symmetry. apply Rmax_left. apply Rnot_lt_le. intros Q. apply L in Q. discriminate.
Qed.
Theorem C63_span : forall mn mx, usual_bounds mn mx ->
  ffinite (span mn mx) = true /\ R64 (span mn mx) = Rmax (Rmax (extent_of (vx mn) (vx mx)) (extent_of (vy mn) (vy mx))) (extent_of (vz mn) (vz mx)).
Proof.
  intros mn mx (X & Y & Z). apply usual_extent in X as (FX & EX & _), Y as (FY & EY & _), Z as (FZ & EZ & _). unfold span.
  destruct (fmax_largest _ _ FX FY) as (F1 & E1). destruct (fmax_largest _ _ F1 FZ) as (F2 & E2). split; [exact F2|]. now rewrite E2, E1, EX, EY, EZ.
Qed.
Print Assumptions C63_span.
Lemma usual_sane mn mx : usual_bounds mn mx -> sane_header mn mx.
Proof.
  intros U. destruct (C63_span _ _ U) as (F & E). destruct U as (X & Y & Z). pose proof (usual_extent _ _ X) as (_ & _ & X1). pose proof (usual_extent _ _ Y) as (_ & _ & Y1). pose proof (usual_extent _ _ Z) as (_ & _ & Z1).
  assert (LE : (bpow radix2 899 <= bpow radix2 900)%R) by (apply bpow_le; lia).
  destruct X as (XF & _ & XB & _), Y as (YF & _ & YB & _), Z as (ZF & _ & ZB & _). split; [exact F|]. split; [|repeat split; auto; lra].
  rewrite E. split; [eapply Rle_trans; [apply Z1|apply Rmax_r]|]. apply Rmax_lub; [apply Rmax_lub|]; lra.
Qed.
(* no axis' extent is rounded down: the root voxel contains the header box, and with it every point of the header box *)
Theorem C63_root_box_contains_usual_header_box : forall mn mx, usual_bounds mn mx ->
  (R64 (vx mx) - R64 (vx mn) <= extent_of (vx mn) (vx mx))%R -> (R64 (vy mx) - R64 (vy mn) <= extent_of (vy mn) (vy mx))%R -> (R64 (vz mx) - R64 (vz mn) <= extent_of (vz mn) (vz mx))%R ->
  box_contains (box_of_key root_key mn mx) (mkBox (vx mn) (vy mn) (vz mn) (vx mx) (vy mx) (vz mx)) = true /\
  forall v, box_contains_pt (mkBox (vx mn) (vy mn) (vz mn) (vx mx) (vy mx) (vz mx)) v = true -> box_contains_pt (box_of_key root_key mn mx) v = true.
Proof.
  intros mn mx U A B C. pose proof (usual_sane _ _ U) as S. destruct (C63_span _ _ U) as (_ & E).
  assert (K : box_contains (box_of_key root_key mn mx) (mkBox (vx mn) (vy mn) (vz mn) (vx mx) (vy mx) (vz mx)) = true).
  { destruct U as (X & Y & Z). apply C63_root_box_contains_header_box; [exact S|apply X|apply Y|apply Z| |apply X|apply Y|apply Z]. unfold axis_exact. rewrite E. split; [|split].
    - eapply Rle_trans; [exact A|]. eapply Rle_trans; [|apply Rmax_l]. apply Rmax_l.
    - eapply Rle_trans; [exact B|]. eapply Rle_trans; [|apply Rmax_l]. apply Rmax_r.
    - eapply Rle_trans; [exact C|]. apply Rmax_r. }
  split; [exact K|]. intros v V. unfold box_contains, box_contains_pt, fge in *. cbn [x_min y_min z_min x_max y_max z_max] in *.
  repeat (apply andb_prop in K as (K & ?K)). repeat (apply andb_prop in V as (V & ?V)). repeat (apply andb_true_intro; split); eapply fle_trans; eassumption.
Qed.
Print Assumptions C63_root_box_contains_usual_header_box.
(* Span decides the voxel grid: the root box has that side on every axis *)
Example C63_usual_nonvacuous : usual_bounds (v3 0 0 0) (v3 8 4 16) /\ feq (span (v3 0 0 0) (v3 8 4 16)) (f64_of_Z 16) = true /\
  (R64 (vz (v3 8 4 16)) - R64 (vz (v3 0 0 0)) <= extent_of (vz (v3 0 0 0)) (vz (v3 8 4 16)))%R.
Proof.
  assert (U : forall a b, (0 <= a <= b)%Z -> (b <= 16)%Z -> usual_axis (f64_of_Z a) (f64_of_Z b)).
  { intros a b L H. destruct (R64_Z a ltac:(lia)) as (A & A'), (R64_Z b ltac:(lia)) as (B & B'). unfold usual_axis. rewrite A', B'. assert (T : (IZR 16 <= bpow radix2 899)%R) by (change (IZR 16) with (bpow radix2 4); apply bpow_le; lia).
    assert (Q : (0 <= IZR a)%R /\ (IZR a <= IZR b)%R /\ (IZR b <= IZR 16)%R) by (split; [|split]; apply IZR_le; lia). rewrite !Rabs_pos_eq by lra. repeat split; auto; lra. }
  split; [split; [|split]; cbn [v3 vx vy vz]; apply U; lia|]. split; [vm_compute; reflexivity|].
  cbn [v3 vz]. unfold extent_of. destruct (R64_Z 0 ltac:(lia)) as (_ & ->), (R64_Z 16 ltac:(lia)) as (_ & ->). change (FLT_exp (-1074) 53) with fexp64. rewrite rnd_id; [lra|].
  replace (16 - 0)%R with (bpow radix2 4) by (change (bpow radix2 4) with 16%R; lra). apply generic_format_bpow. vm_compute. discriminate.
Qed.

Example C63_nonvacuous : exists mn mx, sane_header mn mx /\ axis_exact mn mx /\ (0 < R64 (span mn mx))%R.
Proof.
  exists (v3 0 0 0), (v3 8 4 2). split; [exact sane_ex|].
  assert (E : R64 (span (v3 0 0 0) (v3 8 4 2)) = 8%R).
  { apply (R64_by_eq _ (f64_of_Z 8)); [apply R64_Z; lia|vm_compute; reflexivity|vm_compute; reflexivity]. }
  unfold axis_exact. rewrite E. cbn [v3 vx vy vz].
  destruct (R64_Z 0 ltac:(lia)) as (_ & ->), (R64_Z 8 ltac:(lia)) as (_ & ->), (R64_Z 4 ltac:(lia)) as (_ & ->), (R64_Z 2 ltac:(lia)) as (_ & ->).
  repeat split; lra.
Qed.
