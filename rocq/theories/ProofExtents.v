(* ProofExtents.v - extents, VLR payloads (C24-C27) *)
From Verif Require Import BaseFacts ModelFloat ModelGeom ModelPoint ModelHeader ModelVlr ModelExtents ModelConfig SpecPoint SpecConfig
  ProofFloat ProofPoint ProofHeader.
From Coq Require Import ZifyBool.
Open Scope Z_scope.

(* ---- list updates ---- *)
Lemma set_nth_ok {A} (v : A) : forall n l, (n < length l)%nat ->
  exists l', set_nth n v l = Ok l' /\ length l' = length l /\ forall i, nth_error l' i = if Nat.eqb i n then Some v else nth_error l i.
Proof.
  induction n as [|n IH]; intros [|a l] H; cbn [length] in *; try lia.
  - exists (v :: l). split; [reflexivity|]. split; [reflexivity|]. intros [|i]; reflexivity.
  - destruct (IH l) as (l' & E & L & N); [lia|]. exists (a :: l'). cbn [set_nth]. rewrite E. cbn [bind]. split; [reflexivity|].
    split; [cbn; lia|]. intros [|i]; [reflexivity|]. cbn [nth_error]. rewrite N. reflexivity.
Qed.
Lemma copy_range_ok {A} (src : list A) : forall n s d dst, (s + n <= length src)%nat -> (d + n <= length dst)%nat ->
  exists l, copy_range n s d src dst = Ok l /\ length l = length dst /\
    forall i, nth_error l i = if (d <=? i)%nat && (i <? d + n)%nat then nth_error src (i - d + s) else nth_error dst i.
Proof.
  induction n as [|n IH]; intros s d dst Hs Hd.
  - exists dst. split; [reflexivity|]. split; [reflexivity|]. intros i. rewrite Nat.add_0_r.
    destruct (d <=? i)%nat eqn:E1, (i <? d)%nat eqn:E2; cbn [andb]; auto; lia.
  - cbn [copy_range]. unfold get_nth. destruct (nth_error src s) as [v|] eqn:Ev; [|apply nth_error_None in Ev; lia].
    cbn [bind]. destruct (set_nth_ok v d dst) as (l1 & E1 & L1 & N1); [lia|]. rewrite E1. cbn [bind].
    destruct (IH (S s) (S d) l1) as (l & E & L & N); [lia|lia|]. exists l. split; [exact E|]. split; [lia|].
    intros i. rewrite N, N1. destruct (Nat.eq_dec i d) as [->|Ne].
    + replace ((S d <=? d)%nat) with false by lia. replace ((d <=? d)%nat) with true by lia. replace ((d <? d + S n)%nat) with true by lia.
      cbn [andb]. rewrite Nat.eqb_refl. replace (d - d + s)%nat with s by lia. now rewrite Ev.
    + replace ((i =? d)%nat) with false by (symmetry; apply Nat.eqb_neq; auto).
      destruct (S d <=? i)%nat eqn:A1.
      * replace ((d <=? i)%nat) with true by lia. replace (S d + n)%nat with (d + S n)%nat by lia.
        destruct ((i <? d + S n)%nat); cbn [andb]; auto. f_equal. lia.
      * replace ((d <=? i)%nat) with false by lia. reflexivity.
Qed.

Lemma base_dims_ok fmt : 6 <= fmt <= 8 -> base_dims fmt = Ok (las_dims fmt).
Proof. intros H. unfold base_dims, las_dims. assert (fmt = 6 \/ fmt = 7 \/ fmt = 8) as [-> |[-> | ->]] by lia; reflexivity. Qed.
Lemma las_dims_range fmt : 14 <= las_dims fmt <= 18.
Proof. unfold las_dims. destruct (fmt =? 6), (fmt =? 7); lia. Qed.

Lemma new_extents_ok fmt neb ext : 6 <= fmt <= 8 -> 0 <= neb < 65536 ->
  new_extents fmt neb ext = Ok (mkExts fmt ext (repeat default_extent (Z.to_nat (las_dims fmt + neb)))).
Proof.
  intros Hf Hn. unfold new_extents, num_extents. replace ((fmt <? 6) || (8 <? fmt)) with false by lia.
  rewrite base_dims_ok by assumption. cbn [bind]. unfold to_u. rewrite Z.mod_small by (change (2 ^ 16) with 65536; lia). reflexivity.
Qed.
Lemma new_extents_throw fmt neb ext : ~ 6 <= fmt <= 8 -> new_extents fmt neb ext = Throw.
Proof. intros H. unfold new_extents. now replace ((fmt <? 6) || (8 <? fmt)) with true by lia. Qed.
Lemma new_extents_shaped fmt neb ext x : 0 <= neb < 65536 -> new_extents fmt neb ext = Ok x -> 6 <= fmt <= 8 /\ shaped x neb /\ xs_fmt x = fmt /\ xs_ext x = ext.
Proof.
  intros Hn H. destruct (Z.le_gt_cases 6 fmt) as [A|A]; [destruct (Z.le_gt_cases fmt 8) as [B|B]|]; try (rewrite new_extents_throw in H by lia; discriminate).
  rewrite new_extents_ok in H by lia. injection H as <-. pose proof (las_dims_range fmt). unfold shaped. cbn [xs_fmt xs_items xs_ext]. rewrite repeat_length. lia.
Qed.

Lemma nth_repeat {A} (v : A) n i : (i < n)%nat -> nth_error (repeat v n) i = Some v.
Proof. revert i; induction n as [|n IH]; intros [|i] H; cbn; try lia; auto. apply IH. lia. Qed.

(* slot i of the rebuilt extents *)
Lemma reslot_ok o n fmt neb ext : shaped o n -> 6 <= fmt <= 8 -> 0 <= neb < 65536 ->
  exists l, reslot_extents o fmt neb ext = Ok (mkExts fmt ext l) /\
    length l = Z.to_nat (las_dims fmt + neb) /\
    forall i, (i < length l)%nat -> nth_error l i =
      if (i <? 14)%nat then nth_error (xs_items o) i
      else if (i <? Z.to_nat (las_dims fmt))%nat then
        (if (i <? 17)%nat then (if 6 <? xs_fmt o then nth_error (xs_items o) i else Some default_extent)
         else (if xs_fmt o =? 8 then nth_error (xs_items o) i else Some default_extent))
      else if neb =? n then nth_error (xs_items o) (i - Z.to_nat (las_dims fmt) + Z.to_nat (las_dims (xs_fmt o)))
      else Some default_extent.
Proof.
  intros (Hof & Hn & Hl) Hf Hneb. unfold reslot_extents. rewrite new_extents_ok by assumption. cbn [bind xs_items xs_fmt].
  set (D := repeat default_extent (Z.to_nat (las_dims fmt + neb))).
  assert (LD : length D = Z.to_nat (las_dims fmt + neb)) by apply repeat_length.
  assert (ND : forall i, (i < length D)%nat -> nth_error D i = Some default_extent) by (intros i Hi; apply nth_repeat; lia).
  clearbody D. pose proof (las_dims_range fmt) as R1. pose proof (las_dims_range (xs_fmt o)) as R2.
  destruct (copy_range_ok (xs_items o) 14 0 0 D) as (l1 & E1 & L1 & N1); [lia|lia|]. rewrite E1. cbn [bind].
  assert (S2 : exists l2, (if (6 <? fmt) && (6 <? xs_fmt o) then copy_range 3 14 14 (xs_items o) l1 else Ok l1) = Ok l2 /\ length l2 = length D /\
     forall i, nth_error l2 i = if (6 <? fmt) && (6 <? xs_fmt o) && ((14 <=? i)%nat && (i <? 17)%nat) then nth_error (xs_items o) i else nth_error l1 i).
  { destruct ((6 <? fmt) && (6 <? xs_fmt o)) eqn:B.
    - destruct (copy_range_ok (xs_items o) 3 14 14 l1) as (l2 & E2 & L2 & N2);
        [unfold las_dims in *; destruct (xs_fmt o =? 6) eqn:?, (xs_fmt o =? 7) eqn:?; lia|
         unfold las_dims in *; destruct (fmt =? 6) eqn:?, (fmt =? 7) eqn:?; lia|].
      exists l2. split; [exact E2|]. split; [lia|]. intros i. rewrite N2. change (14 + 3)%nat with 17%nat. cbn [andb].
      destruct ((14 <=? i)%nat && (i <? 17)%nat) eqn:C; auto. f_equal. lia.
    - exists l1. cbn [andb]. auto. }
  destruct S2 as (l2 & E2 & L2 & N2). rewrite E2. cbn [bind].
  assert (S3 : exists l3, (if (fmt =? 8) && (xs_fmt o =? 8) then copy_range 1 17 17 (xs_items o) l2 else Ok l2) = Ok l3 /\ length l3 = length D /\
     forall i, nth_error l3 i = if (fmt =? 8) && (xs_fmt o =? 8) && (i =? 17)%nat then nth_error (xs_items o) i else nth_error l2 i).
  { destruct ((fmt =? 8) && (xs_fmt o =? 8)) eqn:B.
    - destruct (copy_range_ok (xs_items o) 1 17 17 l2) as (l3 & E3 & L3 & N3);
        [unfold las_dims in *; destruct (xs_fmt o =? 6) eqn:?, (xs_fmt o =? 7) eqn:?; lia|
         unfold las_dims in *; destruct (fmt =? 6) eqn:?, (fmt =? 7) eqn:?; lia|].
      exists l3. split; [exact E3|]. split; [lia|]. intros i. rewrite N3. change (17 + 1)%nat with 18%nat. cbn [andb].
      destruct (i =? 17)%nat eqn:C.
      + assert (i = 17)%nat by (apply Nat.eqb_eq; auto). subst i. reflexivity.
      + apply Nat.eqb_neq in C. replace ((17 <=? i)%nat && (i <? 18)%nat) with false by lia. reflexivity.
    - exists l2. cbn [andb]. auto. }
  destruct S3 as (l3 & E3 & L3 & N3). rewrite E3. cbn [bind]. rewrite !base_dims_ok by assumption. cbn [bind].
  assert (T : to_u 16 neb = neb) by (unfold to_u; apply Z.mod_small; change (2 ^ 16) with 65536; lia). rewrite T.
  assert (T2 : to_u 64 (Z.of_nat (length (xs_items o)) - las_dims (xs_fmt o)) = n).
  { rewrite Hl. replace (las_dims (xs_fmt o) + n - las_dims (xs_fmt o)) with n by lia. unfold to_u. apply Z.mod_small.
    assert (65536 < 2 ^ 64) by reflexivity. lia. }
  rewrite T2.
  assert (S4 : exists l4, (if neb =? n then copy_range (Z.to_nat neb) (Z.to_nat (las_dims (xs_fmt o))) (Z.to_nat (las_dims fmt)) (xs_items o) l3 else Ok l3) = Ok l4 /\ length l4 = length D /\
     forall i, (i < length D)%nat -> nth_error l4 i = if (neb =? n) && (Z.to_nat (las_dims fmt) <=? i)%nat then nth_error (xs_items o) (i - Z.to_nat (las_dims fmt) + Z.to_nat (las_dims (xs_fmt o))) else nth_error l3 i).
  { destruct (neb =? n) eqn:B.
    - destruct (copy_range_ok (xs_items o) (Z.to_nat neb) (Z.to_nat (las_dims (xs_fmt o))) (Z.to_nat (las_dims fmt)) l3) as (l4 & E4 & L4 & N4); [lia|lia|].
      exists l4. split; [exact E4|]. split; [lia|]. intros i Hi. rewrite N4. cbn [andb].
      replace ((i <? Z.to_nat (las_dims fmt) + Z.to_nat neb)%nat) with true by lia. rewrite andb_true_r. reflexivity.
    - exists l3. cbn [andb]. auto. }
  destruct S4 as (l4 & E4 & L4 & N4). rewrite E4. cbn [bind]. exists l4. split; [reflexivity|]. split; [lia|].
  intros i Hi. rewrite N4 by lia. rewrite L4 in Hi.
  destruct (i <? 14)%nat eqn:I14.
  { replace ((Z.to_nat (las_dims fmt) <=? i)%nat) with false by lia. rewrite andb_false_r, N3.
    replace ((i =? 17)%nat) with false by (symmetry; apply Nat.eqb_neq; lia). rewrite andb_false_r, N2.
    replace ((14 <=? i)%nat) with false by lia. cbn [andb]. rewrite andb_false_r, N1. cbn [Nat.leb andb]. change (0 + 14)%nat with 14%nat. rewrite I14.
    f_equal. lia. }
  assert (N1' : nth_error l1 i = Some default_extent).
  { rewrite N1. change (0 + 14)%nat with 14%nat. rewrite I14, andb_false_r. apply ND. lia. }
  destruct (i <? Z.to_nat (las_dims fmt))%nat eqn:IB.
  - replace ((Z.to_nat (las_dims fmt) <=? i)%nat) with false by lia. rewrite andb_false_r, N3, N2, N1'.
    assert (Q : (i = 14 \/ i = 15 \/ i = 16 \/ i = 17)%nat) by lia.
    assert (F : fmt = 7 \/ fmt = 8). { unfold las_dims in IB. destruct (fmt =? 6) eqn:?, (fmt =? 7) eqn:?; lia. }
    assert (Q8 : i = 17%nat -> fmt = 8). { intros ->. unfold las_dims in IB. destruct (fmt =? 6) eqn:?, (fmt =? 7) eqn:?; lia. }
    destruct Q as [->|[->|[->|Q]]]; [destruct F as [-> | ->]; cbn [Nat.eqb Nat.leb Nat.ltb andb]; rewrite ?andb_false_r; change (6 <? 7) with true; change (6 <? 8) with true; cbn [andb]; destruct (6 <? xs_fmt o); reflexivity..|].
    specialize (Q8 Q). rewrite Q, Q8 in *. change (8 =? 8) with true. cbn. destruct (xs_fmt o =? 8) eqn:X8; [reflexivity|].
    cbn. rewrite andb_false_r. reflexivity.
  - replace ((Z.to_nat (las_dims fmt) <=? i)%nat) with true by lia. rewrite andb_true_r.
    destruct (neb =? n); [reflexivity|]. rewrite N3, N2, N1'.
    destruct ((fmt =? 8) && (xs_fmt o =? 8) && (i =? 17)%nat) eqn:B1.
    { exfalso. apply andb_true_iff in B1. destruct B1 as (B1 & B2). apply Nat.eqb_eq in B2. assert (Efmt : fmt = 8) by lia. rewrite Efmt in IB. change (las_dims 8) with 18 in *. lia. }
    destruct ((6 <? fmt) && (6 <? xs_fmt o) && ((14 <=? i)%nat && (i <? 17)%nat)) eqn:B2; [|reflexivity].
    exfalso. assert (fmt = 7 \/ fmt = 8) by lia. unfold las_dims in IB. destruct (fmt =? 6) eqn:?, (fmt =? 7) eqn:?; lia.
Qed.

Lemma dim_slot d : exists i, forall x, has_dim (xs_fmt x) d -> dim_get d x = get_nth i (xs_items x).
Proof.
  destruct d; cbn [has_dim dim_get]; eexists; intros x H; try reflexivity.
  1,2,3: replace (6 <? xs_fmt x) with true by lia; reflexivity. rewrite H. reflexivity.
Qed.
Lemma nth_error_ext {A} (a b : list A) : length a = length b -> (forall i, (i < length a)%nat -> nth_error a i = nth_error b i) -> a = b.
Proof.
  revert b; induction a as [|x a IH]; intros [|y b] L H; cbn in *; try lia; auto.
  f_equal; [specialize (H 0%nat ltac:(lia)); cbn in H; congruence|]. apply IH; [lia|]. intros i Hi. apply (H (S i)). lia.
Qed.
Lemma nth_error_skipn' {A} (l : list A) k i : nth_error (skipn k l) i = nth_error l (k + i).
Proof. revert l; induction k as [|k IH]; intros [|a l]; cbn; auto. now destruct i. Qed.

Lemma reslot_spec o n fmt neb ext : shaped o n -> 6 <= fmt <= 8 -> 0 <= neb < 65536 ->
  exists y, reslot_extents o fmt neb ext = Ok y /\ shaped y neb /\ xs_fmt y = fmt /\ xs_ext y = ext /\
    (forall d, has_dim fmt d -> has_dim (xs_fmt o) d -> dim_get d y = dim_get d o) /\
    (forall d, has_dim fmt d -> ~ has_dim (xs_fmt o) d -> dim_get d y = Ok default_extent) /\
    eb_extents y = (if neb =? n then eb_extents o else Ok (repeat default_extent (Z.to_nat neb))).
Proof.
  intros Ho Hf Hneb. destruct (reslot_ok o n fmt neb ext Ho Hf Hneb) as (l & E & L & N).
  destruct Ho as (Hof & Hn & Hl). pose proof (las_dims_range fmt) as R1. pose proof (las_dims_range (xs_fmt o)) as R2.
  exists (mkExts fmt ext l). split; [exact E|]. split; [unfold shaped; cbn; lia|]. split; [reflexivity|]. split; [reflexivity|].
  assert (S : forall i, (i < length l)%nat -> (i < 14)%nat -> get_nth i l = get_nth i (xs_items o)).
  { intros i Hi H14. unfold get_nth. rewrite N by assumption. now replace ((i <? 14)%nat) with true by lia. }
  assert (D78 : fmt = 7 \/ fmt = 8 -> 17 <= las_dims fmt) by (unfold las_dims; destruct (fmt =? 6) eqn:?, (fmt =? 7) eqn:?; lia).
  assert (D8 : fmt = 8 -> las_dims fmt = 18) by (intros ->; reflexivity).
  assert (Srgb : forall i, (14 <= i < 17)%nat -> fmt = 7 \/ fmt = 8 -> get_nth i l = if 6 <? xs_fmt o then get_nth i (xs_items o) else Ok default_extent).
  { intros i Hi F. unfold get_nth. specialize (D78 F). rewrite N by lia. replace ((i <? 14)%nat) with false by lia. replace ((i <? Z.to_nat (las_dims fmt))%nat) with true by lia.
    replace ((i <? 17)%nat) with true by lia. destruct (6 <? xs_fmt o); reflexivity. }
  assert (Snir : fmt = 8 -> get_nth 17 l = if xs_fmt o =? 8 then get_nth 17 (xs_items o) else Ok default_extent).
  { intros F. unfold get_nth. specialize (D8 F). rewrite N by lia. rewrite D8. cbn. destruct (xs_fmt o =? 8); reflexivity. }
  split; [|split].
  - intros d H1 H2. destruct d; cbn [dim_get has_dim xs_items xs_fmt] in *; try (apply S; lia).
    1,2,3: replace (6 <? fmt) with true by lia; rewrite Srgb by lia; replace (6 <? xs_fmt o) with true by lia; reflexivity.
    subst fmt. rewrite Z.eqb_refl, Snir by reflexivity. replace (xs_fmt o =? 8) with true by lia. reflexivity.
  - intros d H1 H2. destruct d; cbn [dim_get has_dim xs_items xs_fmt] in *; try tauto.
    1,2,3: replace (6 <? fmt) with true by lia; rewrite Srgb by lia; replace (6 <? xs_fmt o) with false by lia; reflexivity.
    subst fmt. rewrite Z.eqb_refl, Snir by reflexivity. replace (xs_fmt o =? 8) with false by lia. reflexivity.
  - unfold eb_extents. cbn [xs_fmt xs_items]. rewrite !base_dims_ok by assumption. cbn [bind].
    destruct (neb =? n) eqn:B.
    + f_equal. apply nth_error_ext; rewrite !skipn_length; [lia|]. intros i Hi. rewrite !nth_error_skipn', N by lia.
      replace ((Z.to_nat (las_dims fmt) + i <? 14)%nat) with false by lia. replace ((Z.to_nat (las_dims fmt) + i <? Z.to_nat (las_dims fmt))%nat) with false by lia.
      f_equal. lia.
    + f_equal. apply nth_error_ext; rewrite ?skipn_length, ?repeat_length; [lia|]. intros i Hi. rewrite nth_error_skipn', N, nth_repeat by lia.
      replace ((Z.to_nat (las_dims fmt) + i <? 14)%nat) with false by lia. replace ((Z.to_nat (las_dims fmt) + i <? Z.to_nat (las_dims fmt))%nat) with false by lia.
      reflexivity.
Qed.

(* ---- C24: VLR payloads ---- *)
Lemma enc_pair_length (p : f64 * f64) : length (enc_f64 (fst p) ++ enc_f64 (snd p)) = 16%nat.
Proof. rewrite app_length, !enc_f64_length. reflexivity. Qed.
Lemma enc_pairs_length v : Z.of_nat (length (enc_pairs v)) = pairs_size v.
Proof. unfold enc_pairs, pairs_size. rewrite (flat_map_length_const _ 16) by apply enc_pair_length. lia. Qed.
Lemma dec_pairs_enc v r : dec_pairs (pairs_size v) (enc_pairs v ++ r) = Some (v, r).
Proof.
  unfold dec_pairs, pairs_size, enc_pairs. rewrite Z.mul_comm, Z.div_mul, Nat2Z.id by lia.
  apply dec_many_enc. intros (a & b) s _. unfold dec_pair. cbn [fst snd]. rewrite <- app_assoc, !dec_f64_enc. reflexivity.
Qed.
Lemma pairs_len16 v : (length v < 4096)%nat -> to_u 16 (pairs_size v) = pairs_size v.
Proof. intros H. unfold to_u, pairs_size. apply Z.mod_small. change (2 ^ 16) with 65536. lia. Qed.

Lemma num_extents_ok fmt n : 6 <= fmt <= 8 -> 0 <= n < 65536 -> num_extents fmt n = Ok (las_dims fmt + n).
Proof. intros Hf Hn. unfold num_extents. rewrite base_dims_ok by assumption. cbn [bind]. unfold to_u. rewrite Z.mod_small; [reflexivity|]. change (2 ^ 16) with 65536. lia. Qed.

Lemma mapM_ok_map {A B} (f : A -> outcome B) (g : A -> B) l : (forall a, In a l -> f a = Ok (g a)) -> mapM f l = Ok (map g l).
Proof.
  induction l as [|a l IH]; intros H; cbn [mapM map]; auto. rewrite H by now left. cbn [bind].
  rewrite IH; [reflexivity|]. intros b I. apply H. now right.
Qed.


Lemma f1_not_lt0 : flt f1 f0 = false. Proof. reflexivity. Qed.

Lemma extents_vlr_back x n ext : shaped x n -> Forall (fun e => fgt (ex_min e) (ex_max e) = false) (xs_items x) ->
  extents_of_vlr (extents_to_vlr x) (xs_fmt x) n ext = Ok (mkExts (xs_fmt x) ext (map plain (xs_items x))).
Proof.
  intros (Hf & Hn & L) F. unfold extents_of_vlr. replace ((xs_fmt x <? 6) || (8 <? xs_fmt x)) with false by lia.
  rewrite num_extents_ok by assumption. cbn [bind]. unfold extents_to_vlr. rewrite map_length.
  replace (Z.of_nat (length (xs_items x)) =? las_dims (xs_fmt x) + n) with true by lia. cbn [negb].
  assert (M : mapM (fun p => new_extent2 (fst p) (snd p)) (map (fun e => (ex_min e, ex_max e)) (xs_items x)) = Ok (map plain (xs_items x))).
  { clear L. induction (xs_items x) as [|e l IH]; cbn [map mapM]; auto. inversion F; subst. cbn [fst snd].
    unfold new_extent2 at 1, new_extent. rewrite H1, f1_not_lt0. cbn [bind]. rewrite IH by assumption. reflexivity. }
  rewrite M. reflexivity.
Qed.
Lemma extents_vlr_wrong_count v fmt n ext : 6 <= fmt <= 8 -> 0 <= n < 65536 -> Z.of_nat (length v) <> las_dims fmt + n ->
  extents_of_vlr v fmt n ext = Throw.
Proof.
  intros Hf Hn Hl. unfold extents_of_vlr. replace ((fmt <? 6) || (8 <? fmt)) with false by lia. rewrite num_extents_ok by assumption. cbn [bind].
  replace (Z.of_nat (length v) =? las_dims fmt + n) with false by lia. reflexivity.
Qed.
Lemma set_extended_back x : set_extended (mkExts (xs_fmt x) true (map plain (xs_items x))) (extents_to_extended x) = Ok (mkExts (xs_fmt x) true (xs_items x)).
Proof.
  unfold set_extended, extents_to_extended. cbn [xs_ext xs_items xs_fmt negb]. rewrite !map_length, Nat.eqb_refl. cbn [negb]. do 2 f_equal.
  induction (xs_items x) as [|e l IH]; cbn; auto. rewrite IH. destruct e; reflexivity.
Qed.
Lemma set_extended_wrong x v : xs_ext x = false \/ length v <> length (xs_items x) -> set_extended x v = Throw.
Proof.
  intros H. unfold set_extended. destruct (xs_ext x); [|reflexivity]. cbn [negb]. destruct H as [H|H]; [discriminate|].
  destruct (Nat.eqb_spec (length v) (length (xs_items x))); [contradiction|reflexivity].
Qed.

(* ---- C26 ---- *)
Lemma new_extent_spec mn mx mean var : 
  (exists e, new_extent mn mx mean var = Ok e /\ e = mkExt mn mx mean var /\ extent_ok e) \/
  (new_extent mn mx mean var = Throw /\ (fgt mn mx = true \/ flt var f0 = true)).
Proof.
  unfold new_extent, extent_ok. destruct (fgt mn mx) eqn:A; [right; auto|]. destruct (flt var f0) eqn:B; [right; auto|].
  left. eexists. split; [reflexivity|]. cbn. auto.
Qed.
Lemma copy_extent_spec e : (copy_extent e = Ok e /\ extent_ok e) \/ (copy_extent e = Throw /\ ~ extent_ok e).
Proof.
  unfold copy_extent, extent_ok. destruct (fgt (ex_min e) (ex_max e)) eqn:A; [right; split; [reflexivity|intros (H & _); congruence]|].
  destruct (flt (ex_var e) f0) eqn:B; [right; split; [reflexivity|intros (_ & H); congruence]|]. left; auto.
Qed.
Lemma copy_extents_ok x : Forall extent_ok (xs_items x) -> copy_extents x = Ok x.
Proof.
  intros F. unfold copy_extents. rewrite (mapM_ok_map _ (fun e => e)).
  - rewrite map_id. cbn [bind]. destruct x; reflexivity.
  - intros e I. rewrite Forall_forall in F. destruct (copy_extent_spec e) as [(E & _)|(_ & N)]; auto. exfalso; apply N; auto.
Qed.
Lemma copy_extents_bad x : ~ Forall extent_ok (xs_items x) -> copy_extents x = Throw.
Proof.
  intros F. unfold copy_extents. assert (M : mapM copy_extent (xs_items x) = Throw).
  { induction (xs_items x) as [|e l IH]; [exfalso; apply F; constructor|]. cbn [mapM].
    destruct (copy_extent_spec e) as [(E & K)|(E & _)]; rewrite E; cbn [bind]; auto. rewrite IH; auto. }
  rewrite M. reflexivity.
Qed.

(* ---- C27 ---- *)
Lemma num_bytes_from_eb_ok items : Forall (fun e => 0 <= eb_type e <= 30) items -> num_bytes_from_eb items = Ok (eb_total items).
Proof.
  induction 1 as [|e l H _ IH]; [reflexivity|]. cbn [num_bytes_from_eb eb_total fold_right].
  assert (S : (if eb_type e =? 0 then Ok (eb_options e)
                 else match nth_error EXTRA_BYTE_DATA_TYPE (Z.to_nat (eb_type e)) with Some n => Ok n | None => UB end) = Ok (las_eb_size e)).
  { unfold las_eb_size. cbv zeta. destruct (Z.eq_dec (eb_type e) 0) as [E0|N0]; [rewrite E0; reflexivity|].
    replace (eb_type e =? 0) with false by lia.
    assert (T : exists k, (k < 31)%nat /\ eb_type e = Z.of_nat k) by (exists (Z.to_nat (eb_type e)); lia).
    destruct T as (k & Hk & ->). rewrite Nat2Z.id.
    do 31 (destruct k as [|k]; [reflexivity|]). lia. }
  rewrite S. cbn [bind]. rewrite IH. reflexivity.
Qed.
Lemma num_bytes_from_eb_ub items : Exists (fun e => 30 < eb_type e) items -> num_bytes_from_eb items = UB.
Proof.
  induction items as [|e l IH]; intros H; [inversion H|]. cbn [num_bytes_from_eb].
  destruct (Z.ltb_spec 30 (eb_type e)) as [G|G].
  - replace (eb_type e =? 0) with false by lia. destruct (nth_error _ _) eqn:E; [|reflexivity].
    exfalso. assert (Z.to_nat (eb_type e) < length EXTRA_BYTE_DATA_TYPE)%nat by (apply nth_error_Some; congruence). cbn in *. lia.
  - assert (Exists (fun e => 30 < eb_type e) l) by (inversion H; subst; [lia|assumption]).
    destruct (if eb_type e =? 0 then _ else _) eqn:E; cbn [bind]; [rewrite IH by assumption; reflexivity| |reflexivity].
    destruct (eb_type e =? 0); [discriminate|]. destruct (nth_error _ _); discriminate.
Qed.
Lemma las_eb_size_range e : wf_eb e -> eb_type e <= 30 -> 0 <= las_eb_size e <= 255.
Proof.
  intros (_ & T & O & _) H. unfold las_eb_size. cbv zeta. destruct (Z.eq_dec (eb_type e) 0) as [E0|N0]; [rewrite E0; cbn; lia|].
  replace (eb_type e =? 0) with false by lia.
  assert (T' : exists k, (k < 31)%nat /\ eb_type e = Z.of_nat k) by (exists (Z.to_nat (eb_type e)); lia).
  destruct T' as (k & Hk & ->). do 31 (destruct k as [|k]; [vm_compute; split; discriminate|]). lia.
Qed.
Lemma extent_of_list_bounds l e : extent_of_list l = Ok e -> fgt (ex_min e) (ex_max e) = false.
Proof.
  unfold extent_of_list. destruct l as [|a [|b [|c [|d [|? ?]]]]]; try discriminate; destruct (fgt a b) eqn:E; try discriminate; intros H; injection H as <-; exact E.
Qed.
Lemma extent_of_list_two mn mx e : extent_of_list [mn; mx] = Ok e -> extent_ok e.
Proof. unfold extent_of_list. destruct (fgt mn mx) eqn:E; [discriminate|]. intros H; injection H as <-. split; [exact E|reflexivity]. Qed.
Lemma las_base_ok' fmt : 6 <= fmt <= 8 -> base_size fmt = Ok (las_base fmt).
Proof. apply las_base_ok. Qed.
