(* ProofKey.v - proofs about VoxelKey *)
From Verif Require Import BaseFacts ModelKey SpecKey.
From Coq Require Import ZifyBool ZifyNat Arith.Wf_nat.

Lemma key_eqb_spec a b : reflect (a = b) (key_eqb a b).
Proof.
  destruct a as [d x y z], b as [d' x' y' z']; unfold key_eqb; cbn.
  destruct (Z.eqb_spec d d'), (Z.eqb_spec x x'), (Z.eqb_spec y y'), (Z.eqb_spec z z'); cbn;
    constructor; congruence.
Qed.

Lemma key_eqb_refl a : key_eqb a a = true.
Proof. destruct (key_eqb_spec a a); congruence. Qed.

Lemma key_eqb_eq a b : key_eqb a b = true <-> a = b.
Proof. destruct (key_eqb_spec a b); split; congruence. Qed.

Lemma key_valid_spec k : key_valid k = true <-> valid k.
Proof. unfold key_valid, valid. lia. Qed.

Lemma key_valid_false k : key_valid k = false <-> ~ valid k.
Proof. rewrite <- key_valid_spec. destruct (key_valid k); split; congruence. Qed.

Lemma valid_dec k : {valid k} + {~ valid k}.
Proof.
  destruct (key_valid k) eqn:E; [left|right].
  - now apply key_valid_spec.
  - now apply key_valid_false.
Qed.

Lemma testbit_bit n i : 0 <= i -> bit n i = if Z.testbit n i then 1 else 0.
Proof.
  intros Hi. unfold bit. rewrite <- Z.shiftr_div_pow2 by lia.
  rewrite <- Z.bit0_mod, Z.shiftr_spec by lia.
  rewrite Z.add_0_l. destruct (Z.testbit n i); reflexivity.
Qed.

Lemma bisect_coord_ok v dir i : 0 <= i -> 0 <= v < 2^30 ->
  bisect_coord v dir i = Ok (2 * v + bit dir i).
Proof.
  intros Hi Hv. rewrite testbit_bit by lia. unfold bisect_coord.
  assert (i32 (v * 2) = true) as -> by (unfold i32, in_range, INT32_MIN, INT32_MAX; lia).
  cbn [defined bind].
  destruct (Z.testbit dir i).
  - assert (i32 (v * 2 + 1) = true) as -> by (unfold i32, in_range, INT32_MIN, INT32_MAX; lia).
    cbn [defined bind]. f_equal; lia.
  - f_equal; lia.
Qed.

Lemma bisect_coord_ub v dir i : 2^30 <= v -> bisect_coord v dir i = UB.
Proof.
  intros Hv. unfold bisect_coord.
  assert (i32 (v * 2) = false) as -> by (unfold i32, in_range, INT32_MIN, INT32_MAX; lia).
  reflexivity.
Qed.

Lemma bisect_ok k dir : valid k -> children_fit k ->
  bisect k dir = Ok (mkKey (kd k + 1) (2 * kx k + bit dir 0) (2 * ky k + bit dir 1) (2 * kz k + bit dir 2)).
Proof.
  intros (Hd & Hx & Hy & Hz) (Fd & Fx & Fy & Fz). unfold bisect.
  assert (i32 (kd k + 1) = true) as -> by (unfold i32, in_range, INT32_MIN, INT32_MAX; lia).
  cbn [defined bind].
  rewrite !bisect_coord_ok by lia. reflexivity.
Qed.

Lemma bisect_ub k dir : valid k -> ~ children_fit k -> bisect k dir = UB.
Proof.
  intros (Hd & Hx & Hy & Hz) NF. unfold bisect, children_fit in *.
  destruct (i32 (kd k + 1)) eqn:Ed; cbn [defined bind]; [|reflexivity].
  unfold i32, in_range, INT32_MIN, INT32_MAX in Ed.
  destruct (Z_lt_ge_dec (kx k) (2^30)).
  2:{ rewrite (bisect_coord_ub (kx k)) by lia. reflexivity. }
  rewrite (bisect_coord_ok (kx k)) by lia. cbn [bind].
  destruct (Z_lt_ge_dec (ky k) (2^30)).
  2:{ rewrite (bisect_coord_ub (ky k)) by lia. reflexivity. }
  rewrite (bisect_coord_ok (ky k)) by lia. cbn [bind].
  rewrite (bisect_coord_ub (kz k)) by lia. reflexivity.
Qed.

Lemma bit_range n i : 0 <= bit n i <= 1.
Proof. unfold bit. pose proof (Z.mod_pos_bound (n / 2 ^ i) 2 ltac:(lia)). lia. Qed.

Lemma get_parent_valid k : valid k -> get_parent k = mkKey (kd k - 1) (kx k / 2) (ky k / 2) (kz k / 2).
Proof.
  intros H. unfold get_parent. pose proof H as H'. apply key_valid_spec in H'. rewrite H'.
  destruct H as (? & ? & ? & ?). now rewrite !Z.quot_div_nonneg by lia.
Qed.

Lemma get_parent_invalid k : ~ valid k -> get_parent k = invalid_key.
Proof. intros H. unfold get_parent. apply key_valid_false in H. now rewrite H. Qed.

Lemma half_bit v b : 0 <= b <= 1 -> (2 * v + b) / 2 = v.
Proof. intros. Z.div_mod_to_equations. lia. Qed.

Lemma bisect_parent k dir c : valid k -> bisect k dir = Ok c -> get_parent c = k.
Proof.
  intros Hv E.
  assert (F : children_fit k \/ ~ children_fit k) by (unfold children_fit; lia).
  destruct F as [F|F]; [|rewrite bisect_ub in E by assumption; discriminate].
  rewrite bisect_ok in E by assumption. inversion E; subst c. clear E.
  pose proof (bit_range dir 0). pose proof (bit_range dir 1). pose proof (bit_range dir 2).
  destruct Hv as (? & ? & ? & ?).
  rewrite get_parent_valid by (unfold valid; cbn [kd kx ky kz]; lia). cbn [kd kx ky kz].
  rewrite !half_bit by lia. destruct k; cbn. f_equal; lia.
Qed.

Definition dir_of (c : key) : Z := kx c mod 2 + 2 * (ky c mod 2) + 4 * (kz c mod 2).

Lemma dir_of_range c : 0 <= dir_of c <= 7.
Proof. unfold dir_of. Z.div_mod_to_equations. lia. Qed.

Lemma bits_of_dir c : bit (dir_of c) 0 = kx c mod 2 /\ bit (dir_of c) 1 = ky c mod 2 /\ bit (dir_of c) 2 = kz c mod 2.
Proof.
  unfold bit, dir_of. change (2^0) with 1. change (2^1) with 2. change (2^2) with 4.
  Z.div_mod_to_equations. lia.
Qed.

Lemma bit_inj a b : 0 <= a <= 7 -> 0 <= b <= 7 ->
  bit a 0 = bit b 0 -> bit a 1 = bit b 1 -> bit a 2 = bit b 2 -> a = b.
Proof.
  unfold bit. change (2^0) with 1. change (2^1) with 2. change (2^2) with 4.
  intros. Z.div_mod_to_equations. lia.
Qed.

Lemma parent_fits c : int32_key c -> valid c -> 1 <= kd c -> valid (get_parent c) /\ children_fit (get_parent c).
Proof.
  intros (I1 & I2 & I3 & I4) Hv Hd. rewrite get_parent_valid by assumption.
  destruct Hv as (? & ? & ? & ?). unfold valid, children_fit; cbn [kd kx ky kz].
  Z.div_mod_to_equations. lia.
Qed.

Lemma unique_bisect c : int32_key c -> valid c -> 1 <= kd c ->
  exists dir, (0 <= dir <= 7 /\ bisect (get_parent c) dir = Ok c) /\
    forall dir', 0 <= dir' <= 7 -> bisect (get_parent c) dir' = Ok c -> dir' = dir.
Proof.
  intros Hi Hv Hd. destruct (parent_fits c Hi Hv Hd) as (Pv & Pf).
  pose proof (bits_of_dir c) as (B0 & B1 & B2).
  assert (E : forall dir, bisect (get_parent c) dir =
     Ok (mkKey (kd c) (2 * (kx c / 2) + bit dir 0) (2 * (ky c / 2) + bit dir 1) (2 * (kz c / 2) + bit dir 2))).
  { intros dir. rewrite bisect_ok by assumption. rewrite get_parent_valid by assumption.
    cbn [kd kx ky kz]. f_equal. f_equal. lia. }
  exists (dir_of c). split; [split|].
  - apply dir_of_range.
  - rewrite E, B0, B1, B2. rewrite <- !Z.div_mod by lia. now destruct c.
  - intros dir' Hr E'. rewrite E in E'. assert (E2 := E'). injection E2 as E2.
    pose proof (f_equal kx E2) as Ex. pose proof (f_equal ky E2) as Ey. pose proof (f_equal kz E2) as Ez.
    cbn [kd kx ky kz] in Ex, Ey, Ez.
    apply bit_inj; auto using dir_of_range; rewrite ?B0, ?B1, ?B2; Z.div_mod_to_equations; lia.
Qed.

Lemma get_children_ok k : valid k -> children_fit k ->
  exists cs, get_children k = Ok cs /\ length cs = 8%nat /\ NoDup cs /\
    forall c, In c cs <-> exists dir, 0 <= dir <= 7 /\ bisect k dir = Ok c.
Proof.
  intros Hv Hf. unfold get_children. cbn [mapM].
  rewrite !bisect_ok by assumption. cbn [bind].
  eexists; split; [reflexivity|]. split; [reflexivity|].
  split.
  - unfold bit.
    repeat (constructor; [intros Hin; cbn [In] in Hin;
      repeat (destruct Hin as [Hin|Hin]; [inversion Hin; Z.div_mod_to_equations; lia|]); exact Hin|]).
    constructor.
  - intros c. split.
    + intros Hin. cbn [In] in Hin.
      repeat (destruct Hin as [Hin|Hin];
        [subst c; eexists; split; [|apply bisect_ok; assumption]; lia|]). destruct Hin.
    + intros (dir & Hr & E). rewrite bisect_ok in E by assumption. inversion E; subst c; clear E.
      cbn [In].
      assert (dir = 0 \/ dir = 1 \/ dir = 2 \/ dir = 3 \/ dir = 4 \/ dir = 5 \/ dir = 6 \/ dir = 7) as D by lia.
      destruct D as [D|[D|[D|[D|[D|[D|[D|D]]]]]]]; subst dir; tauto.
Qed.

Lemma get_children_exact k : int32_key k -> valid k -> children_fit k ->
  exists cs, get_children k = Ok cs /\ length cs = 8%nat /\ NoDup cs /\
    forall c, int32_key c -> valid c -> 1 <= kd c -> (In c cs <-> get_parent c = k).
Proof.
  intros Hi Hv Hf. destruct (get_children_ok k Hv Hf) as (cs & E & L & N & HI).
  exists cs; repeat split; auto.
  - rewrite HI. intros (dir & _ & Ec). now apply bisect_parent in Ec.
  - intros Hp. apply HI. destruct (unique_bisect c) as (dir & (Hr & Ec) & _); auto.
    exists dir. split; auto. now rewrite <- Hp.
Qed.

(* every listed child is a valid int32 key one level down *)
Lemma get_children_members k cs c : int32_key k -> valid k -> get_children k = Ok cs -> In c cs ->
  int32_key c /\ valid c /\ kd c = kd k + 1 /\ get_parent c = k.
Proof.
  intros Hi Hv E Hin.
  assert (F : children_fit k \/ ~ children_fit k) by (unfold children_fit; lia).
  destruct F as [F|F].
  2:{ unfold get_children in E. cbn [mapM] in E. rewrite bisect_ub in E by assumption. discriminate. }
  destruct (get_children_ok k Hv F) as (cs' & E' & _ & _ & HI).
  rewrite E in E'; inversion E'; subst cs'. apply HI in Hin. destruct Hin as (dir & Hr & Eb).
  split; [|split; [|split]].
  4: eapply bisect_parent; eauto.
  all: rewrite bisect_ok in Eb by assumption; inversion Eb; subst c;
    pose proof (bit_range dir 0); pose proof (bit_range dir 1); pose proof (bit_range dir 2);
    unfold int32_key, valid, children_fit in *; cbn [kd kx ky kz]; lia.
Qed.

(* ---- ancestors ---- *)
Lemma ancestor_0 k : ancestor 0 k = k.
Proof. unfold ancestor. cbn [Z.of_nat]. change (2^0) with 1. rewrite !Z.div_1_r. destruct k; cbn; f_equal; lia. Qed.

Lemma ancestor_S i k : ancestor (S i) k =
  mkKey (kd (ancestor i k) - 1) (kx (ancestor i k) / 2) (ky (ancestor i k) / 2) (kz (ancestor i k) / 2).
Proof.
  unfold ancestor. cbn [kd kx ky kz].
  replace (2 ^ Z.of_nat (S i)) with (2 ^ Z.of_nat i * 2).
  2:{ rewrite Nat2Z.inj_succ, Z.pow_succ_r by lia. lia. }
  assert (0 < 2 ^ Z.of_nat i) by (apply Z.pow_pos_nonneg; lia).
  rewrite <- !Z.div_div by lia. f_equal; lia.
Qed.

Lemma ancestor_add i j k : ancestor i (ancestor j k) = ancestor (i + j) k.
Proof.
  induction i as [|i IH]; cbn [Nat.add].
  - apply ancestor_0.
  - rewrite !ancestor_S, IH. reflexivity.
Qed.

Lemma ancestor_valid i k : valid k -> Z.of_nat i <= kd k -> valid (ancestor i k).
Proof.
  intros (? & ? & ? & ?) Hi. unfold valid, ancestor; cbn [kd kx ky kz].
  assert (0 < 2 ^ Z.of_nat i) by (apply Z.pow_pos_nonneg; lia).
  repeat split; try lia; apply Z.div_pos; lia.
Qed.

Lemma ancestor_invalid i k : kd k < Z.of_nat i -> ~ valid (ancestor i k).
Proof. unfold valid, ancestor; cbn [kd]. lia. Qed.

Lemma get_parent_ancestor i k : valid k -> Z.of_nat i <= kd k -> get_parent (ancestor i k) = ancestor (S i) k.
Proof.
  intros Hv Hi. rewrite get_parent_valid by now apply ancestor_valid. now rewrite ancestor_S.
Qed.

Lemma parents_loop_spec k : valid k -> forall n i, (Z.of_nat n + Z.of_nat i = kd k + 1) ->
  forall f, (n <= f)%nat -> parents_loop f (ancestor i k) = map (fun j => ancestor j k) (seq i n).
Proof.
  intros Hv n. induction n as [|n IH]; intros i Hn f Hf.
  - cbn [seq map]. destruct f as [|f]; [reflexivity|].
    cbn [parents_loop].
    assert (key_valid (ancestor i k) = false) as -> by (apply key_valid_false, ancestor_invalid; lia).
    reflexivity.
  - destruct f as [|f]; [lia|]. cbn [parents_loop seq map].
    assert (key_valid (ancestor i k) = true) as -> by (apply key_valid_spec, ancestor_valid; auto; lia).
    f_equal. rewrite get_parent_ancestor by (auto; lia). apply IH; lia.
Qed.

Lemma get_parents_spec b k : valid k ->
  get_parents b k = map (fun i => ancestor i k) (seq (if b then 0 else 1)%nat (Z.to_nat (kd k) + (if b then 1 else 0))%nat).
Proof.
  intros Hv. unfold get_parents. pose proof Hv as Hv'. apply key_valid_spec in Hv'. rewrite Hv'. cbn [negb].
  assert (Hd : 0 <= kd k) by apply Hv.
  assert (E : get_parent k = ancestor 1 k).
  { rewrite <- (ancestor_0 k) at 1. apply get_parent_ancestor; auto. }
  rewrite E, (parents_loop_spec k Hv (Z.to_nat (kd k))) by lia.
  destruct b.
  - rewrite Nat.add_1_r. cbn [seq map app]. now rewrite ancestor_0.
  - now rewrite Nat.add_0_r.
Qed.

Lemma get_parents_invalid b k : ~ valid k -> get_parents b k = [].
Proof. intros H. unfold get_parents. apply key_valid_false in H. now rewrite H. Qed.

Lemma child_of_spec k p : child_of k p = true <->
  valid k /\ exists i, Z.of_nat i <= kd k /\ p = ancestor i k.
Proof.
  unfold child_of. destruct (valid_dec k) as [Hv|Hv].
  - rewrite get_parents_spec, existsb_exists by assumption. split.
    + intros (q & Hq & E). apply key_eqb_eq in E; subst q.
      apply in_map_iff in Hq. destruct Hq as (i & <- & Hi). apply in_seq in Hi.
      split; auto. exists i. split; [destruct Hv; lia|reflexivity].
    + intros (_ & i & Hi & ->). exists (ancestor i k). split; [|apply key_eqb_refl].
      apply in_map_iff. exists i. split; [reflexivity|]. apply in_seq. destruct Hv; lia.
  - rewrite get_parents_invalid by assumption. cbn. split; [discriminate|]. tauto.
Qed.

Lemma child_of_iff k p : child_of k p = true <->
  valid k /\ valid p /\ kd p <= kd k /\
  kx p = kx k / 2 ^ (kd k - kd p) /\ ky p = ky k / 2 ^ (kd k - kd p) /\ kz p = kz k / 2 ^ (kd k - kd p).
Proof.
  rewrite child_of_spec. split.
  - intros (Hv & i & Hi & ->). split; auto. split; [now apply ancestor_valid|].
    unfold ancestor; cbn [kd kx ky kz].
    replace (kd k - (kd k - Z.of_nat i)) with (Z.of_nat i) by lia. repeat split; lia.
  - intros (Hv & (Hp & _) & Hd & Ex & Ey & Ez). split; auto.
    exists (Z.to_nat (kd k - kd p)). split; [lia|].
    unfold ancestor. rewrite Z2Nat.id by lia. destruct p as [pd px py pz]; cbn [kd kx ky kz] in *.
    subst. f_equal; lia.
Qed.

Lemma child_of_valid_l k p : child_of k p = true -> valid k.
Proof. rewrite child_of_spec. tauto. Qed.
Lemma child_of_valid_r k p : child_of k p = true -> valid p.
Proof. rewrite child_of_iff. tauto. Qed.

Lemma child_of_refl k : valid k -> child_of k k = true.
Proof.
  intros Hv. apply child_of_spec. split; auto. exists 0%nat. split; [apply Hv|now rewrite ancestor_0].
Qed.

Lemma child_of_trans a b c : child_of a b = true -> child_of b c = true -> child_of a c = true.
Proof.
  rewrite !child_of_spec. intros (Ha & i & Hi & ->) (_ & j & Hj & ->). split; auto.
  exists (j + i)%nat. rewrite ancestor_add. split; [|reflexivity].
  unfold ancestor in Hj; cbn [kd] in Hj. lia.
Qed.

Lemma child_of_antisym a b : child_of a b = true -> child_of b a = true -> a = b.
Proof.
  rewrite !child_of_spec. intros (Ha & i & Hi & ->) (_ & j & Hj & E).
  assert (i = 0%nat) as ->.
  { apply (f_equal kd) in E. unfold ancestor in E; cbn [kd] in E. lia. }
  now rewrite ancestor_0.
Qed.

(* ---- C05 ---- *)
Lemma get_parent_at_depth_ok k depth : valid k -> 0 <= depth <= kd k -> kd k - depth < 31 ->
  get_parent_at_depth k depth = Ok (ancestor (Z.to_nat (kd k - depth)) k).
Proof.
  intros Hv Hd Hlt. unfold get_parent_at_depth.
  pose proof Hv as Hv'. apply key_valid_spec in Hv'. rewrite Hv'. cbn [negb].
  destruct (Z.ltb_spec depth 0); [lia|]. destruct (Z.ltb_spec (kd k) depth); [lia|]. cbn [orb].
  destruct (Z.ltb_spec (kd k - depth) 31); [|lia]. cbn [defined bind].
  destruct Hv as (? & ? & ? & ?).
  assert (0 < 2 ^ (kd k - depth)) by (apply Z.pow_pos_nonneg; lia).
  rewrite !Z.quot_div_nonneg by lia. unfold ancestor. rewrite Z2Nat.id by lia.
  f_equal. f_equal. lia.
Qed.

Lemma get_parent_at_depth_throw k depth : valid k -> depth < 0 \/ kd k < depth ->
  get_parent_at_depth k depth = Throw.
Proof.
  intros Hv Hd. unfold get_parent_at_depth. apply key_valid_spec in Hv. rewrite Hv. cbn [negb].
  destruct (Z.ltb_spec depth 0); [reflexivity|]. destruct (Z.ltb_spec (kd k) depth); [reflexivity|lia].
Qed.

Lemma get_parent_at_depth_invalid k depth : ~ valid k -> get_parent_at_depth k depth = Ok invalid_key.
Proof. intros Hv. unfold get_parent_at_depth. apply key_valid_false in Hv. now rewrite Hv. Qed.

Lemma iter_parent k : valid k -> forall i, Z.of_nat i <= kd k -> Nat.iter i get_parent k = ancestor i k.
Proof.
  intros Hv i. induction i as [|i IH]; intros Hi.
  - now rewrite ancestor_0.
  - change (Nat.iter (S i) get_parent k) with (get_parent (Nat.iter i get_parent k)). rewrite IH by lia. now rewrite get_parent_ancestor by (auto; lia).
Qed.

Lemma get_parent_at_depth_ub k depth : valid k -> 0 <= depth <= kd k -> 31 <= kd k - depth ->
  get_parent_at_depth k depth = UB.
Proof.
  intros Hv Hd Hlt. unfold get_parent_at_depth. apply key_valid_spec in Hv. rewrite Hv. cbn [negb].
  destruct (Z.ltb_spec depth 0); [lia|]. destruct (Z.ltb_spec (kd k) depth); [lia|]. cbn [orb].
  destruct (Z.ltb_spec (kd k - depth) 31); [lia|]. reflexivity.
Qed.

(* a key below an in-octree key; the root is above every in-octree key *)
Lemma in_octree_root k : in_octree k -> child_of k root_key = true.
Proof.
  intros (Hd & Hx & Hy & Hz). apply child_of_iff. unfold valid; cbn [kd kx ky kz root_key].
  rewrite Z.sub_0_r. rewrite !Z.div_small by lia. lia.
Qed.

Lemma child_of_root_octree k : child_of k root_key = true -> in_octree k.
Proof.
  rewrite child_of_iff. cbn [kd kx ky kz root_key]. rewrite Z.sub_0_r.
  intros ((Hd & Hx & Hy & Hz) & _ & _ & Ex & Ey & Ez).
  assert (0 < 2 ^ kd k) by (apply Z.pow_pos_nonneg; lia).
  unfold in_octree. repeat split; try lia.
  all: match goal with |- ?v < ?m => destruct (Z_lt_ge_dec v m); [assumption|exfalso];
     assert (1 <= v / m) by (apply Z.div_le_lower_bound; lia); lia end.
Qed.
