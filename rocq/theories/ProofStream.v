(* ProofStream.v - facts about streams and key-indexed containers *)
From Verif Require Import Base BaseFacts ModelKey ModelEntry ModelStream SpecKey ProofKey.

(* ---- maps ---- *)
Lemma mget_mdel_same {V} k (m : kmap V) : mget k (mdel k m) = None.
Proof.
  induction m as [|(k', v) r IH]; [reflexivity|]. unfold mdel in *. cbn [filter fst].
  destruct (key_eqb k' k) eqn:E; cbn [negb]; [exact IH|]. cbn [mget]. now rewrite E.
Qed.
Lemma mget_mdel_other {V} k k' (m : kmap V) : k' <> k -> mget k (mdel k' m) = mget k m.
Proof.
  intros N. induction m as [|(j, v) r IH]; [reflexivity|]. unfold mdel in *. cbn [filter fst mget].
  destruct (key_eqb_spec j k') as [->|Hj]; cbn [negb].
  - destruct (key_eqb_spec k' k); [congruence|]. exact IH.
  - cbn [mget]. now rewrite IH.
Qed.
Lemma mget_mdel {V} k k' (m : kmap V) : mget k (mdel k' m) = if key_eqb k' k then None else mget k m.
Proof. destruct (key_eqb_spec k' k) as [->|N]; [apply mget_mdel_same|now apply mget_mdel_other]. Qed.
Lemma mget_mset {V} k k' v (m : kmap V) : mget k (mset k' v m) = if key_eqb k' k then Some v else mget k m.
Proof. unfold mset. cbn [mget]. destruct (key_eqb_spec k' k) as [->|N]; [reflexivity|now apply mget_mdel_other]. Qed.
Lemma mget_mset_same {V} k v (m : kmap V) : mget k (mset k v m) = Some v.
Proof. now rewrite mget_mset, key_eqb_refl. Qed.
Lemma mget_mset_other {V} k k' v (m : kmap V) : k' <> k -> mget k (mset k' v m) = mget k m.
Proof. intros N. rewrite mget_mset. now destruct (key_eqb_spec k' k). Qed.
Lemma mhas_get {V} k (m : kmap V) : mhas k m = true <-> exists v, mget k m = Some v.
Proof. unfold mhas. destruct (mget k m); split; [eauto|auto|discriminate|intros (v & E); discriminate]. Qed.
Lemma mget_in {V} k v (m : kmap V) : mget k m = Some v -> In (k, v) m.
Proof.
  induction m as [|(k', v') r IH]; cbn [mget]; [discriminate|].
  destruct (key_eqb_spec k' k) as [->|N]; [intros [= ->]; now left|right; auto].
Qed.
Lemma in_mget {V} k v (m : kmap V) : NoDup (map fst m) -> In (k, v) m -> mget k m = Some v.
Proof.
  induction m as [|(k', v') r IH]; cbn [map fst mget]; intros ND H; [contradiction|]. inversion ND; subst.
  destruct H as [[= -> ->]|H]; [now rewrite key_eqb_refl|].
  destruct (key_eqb_spec k' k) as [->|N]; [|auto]. exfalso. apply H2. now apply (in_map fst) in H.
Qed.
Lemma mget_none {V} k (m : kmap V) : mget k m = None <-> ~ In k (map fst m).
Proof.
  induction m as [|(k', v') r IH]; cbn [map fst mget]; [tauto|].
  destruct (key_eqb_spec k' k) as [->|N]; [split; [discriminate|intros H; exfalso; apply H; now left]|].
  rewrite IH. cbn [In]. tauto.
Qed.
Lemma mget_some_in {V} k (m : kmap V) : (exists v, mget k m = Some v) <-> In k (map fst m).
Proof.
  destruct (mget k m) eqn:E.
  - split; [intros _; apply mget_in in E; now apply (in_map fst) in E|eauto].
  - apply mget_none in E. split; [intros (v & [=])|tauto].
Qed.
Lemma mhas_in {V} k (m : kmap V) : mhas k m = true <-> In k (map fst m).
Proof. rewrite mhas_get. apply mget_some_in. Qed.
Lemma mdel_keys {V} k (m : kmap V) k' : In k' (map fst (mdel k m)) <-> In k' (map fst m) /\ k' <> k.
Proof.
  rewrite <- !mget_some_in. rewrite mget_mdel. destruct (key_eqb_spec k k') as [->|N].
  - split; [intros (v & [=])|tauto].
  - split; [intros H; split; [exact H|congruence]|tauto].
Qed.
Lemma mdel_nodup {V} k (m : kmap V) : NoDup (map fst m) -> NoDup (map fst (mdel k m)).
Proof.
  induction m as [|(k', v) r IH]; cbn [map fst]; intros ND; [constructor|]. inversion ND; subst.
  unfold mdel in *. cbn [filter fst]. destruct (negb (key_eqb k' k)); [|auto].
  cbn [map fst]. constructor; [|auto]. intros H. apply H1.
  change (filter _ r) with (mdel k r) in H. now apply mdel_keys in H.
Qed.
Lemma mset_nodup {V} k v (m : kmap V) : NoDup (map fst m) -> NoDup (map fst (mset k v m)).
Proof.
  intros ND. unfold mset. cbn [map fst]. constructor; [|now apply mdel_nodup].
  intros H. apply mdel_keys in H. tauto.
Qed.
Lemma mset_keys {V} k v (m : kmap V) k' : In k' (map fst (mset k v m)) <-> k' = k \/ In k' (map fst m).
Proof. rewrite <- !mget_some_in, mget_mset. destruct (key_eqb_spec k k') as [->|N]; split; eauto. intros [->|H]; [congruence|exact H]. Qed.
Lemma mset_length_same {V} k v w (m : kmap V) : NoDup (map fst m) -> mget k m = Some w -> length (mset k v m) = length m.
Proof.
  intros ND G. unfold mset. cbn [length]. 
  induction m as [|(k', v') r IH]; [discriminate|]. cbn [map fst] in ND. inversion ND; subst.
  unfold mdel in *. cbn [filter fst length mget] in *. destruct (key_eqb_spec k' k) as [->|N]; cbn [negb].
  - f_equal. assert (Hr : mget k r = None) by now apply mget_none. clear - Hr.
    induction r as [|(j, u) r IH]; [reflexivity|]. cbn [filter fst mget length] in *.
    destruct (key_eqb_spec j k); [discriminate|]. cbn [negb length]. now rewrite IH.
  - cbn [length]. f_equal. apply IH; assumption.
Qed.

(* ---- streams ---- *)
Lemma splice_end b d : splice (length d) b d = d ++ b.
Proof. unfold splice. rewrite firstn_all, skipn_all2 by lia. now rewrite app_nil_r. Qed.
Lemma splice_mid a b c x : length x = length b -> splice (length a) x (a ++ b ++ c) = a ++ x ++ c.
Proof.
  intros L. unfold splice. rewrite firstn_app, Nat.sub_diag, firstn_all, firstn_O, app_nil_r. f_equal. f_equal.
  rewrite skipn_app, skipn_all2 by lia. cbn [app]. replace (length a + length x - length a)%nat with (length b) by lia.
  rewrite skipn_app, skipn_all2, Nat.sub_diag by lia. reflexivity.
Qed.

(* an unbounded stream that has not failed, positioned at its end *)
Definition at_end (s : ostream) : Prop := o_bad s = false /\ o_cap s = None /\ o_pos s = length (o_data s).
Definition good_out (s : ostream) : Prop := o_bad s = false /\ o_cap s = None.
Lemma put_end b s : at_end s -> put b s = mkOut (o_data s ++ b) (length (o_data s ++ b)) false None.
Proof.
  intros (B & C & P). unfold put. rewrite B, C, P, splice_end, app_length.
  f_equal. now rewrite Nat.ltb_irrefl.
Qed.
Lemma put_at_end b s : at_end s -> at_end (put b s).
Proof. intros H. rewrite put_end by assumption. now split. Qed.
Lemma put_good b s : good_out s -> good_out (put b s).
Proof. intros (B & C). unfold put. rewrite B, C. split; cbn; [apply Nat.ltb_irrefl|reflexivity]. Qed.
Lemma put_mid b s x y z : good_out s -> o_data s = x ++ y ++ z -> o_pos s = length x -> length y = length b ->
  put b s = mkOut (x ++ b ++ z) (length x + length b) false None.
Proof.
  intros (B & C) D P L. unfold put. rewrite B, C, D, P, splice_mid by congruence.
  f_equal. apply Nat.ltb_irrefl.
Qed.
Lemma skipn_add {A} a b (l : list A) : skipn a (skipn b l) = skipn (b + a) l.
Proof. revert l. induction b as [|b IH]; intros l; [reflexivity|]. destruct l; cbn [skipn Nat.add]; [now rewrite skipn_nil|apply IH]. Qed.
Lemma splice_app p a b d : splice p (a ++ b) d = splice (p + length a) b (splice p a d).
Proof.
  unfold splice. rewrite !app_length. destruct (Nat.le_gt_cases p (length d)) as [Hp|Hp].
  - assert (L : length (firstn p d) = p) by (rewrite firstn_length; lia).
    assert (LA : length (firstn p d ++ a) = (p + length a)%nat) by (rewrite app_length; lia).
    rewrite (app_assoc (firstn p d) a (skipn _ _)).
    rewrite (firstn_app (p + length a)), LA, Nat.sub_diag, firstn_O, app_nil_r, (firstn_all2 (n := p + length a) (firstn p d ++ a)) by lia.
    rewrite <- !app_assoc. do 3 f_equal.
    rewrite (app_assoc (firstn p d) a (skipn _ _)), (skipn_app (p + length a + length b)), LA.
    rewrite (skipn_all2 (n := p + length a + length b) (firstn p d ++ a)) by lia. cbn [app]. rewrite skipn_add. f_equal. lia.
  - rewrite (firstn_all2 (n := p) d), !(skipn_all2 (n := p + _) d) by lia. rewrite !app_nil_r.
    rewrite firstn_all2 by (rewrite app_length; lia). rewrite skipn_all2 by (rewrite app_length; lia).
    now rewrite app_nil_r, app_assoc.
Qed.
Lemma put_app a b s : put (a ++ b) s = put b (put a s).
Proof.
  unfold put. destruct (o_bad s) eqn:B; [now rewrite B|]. destruct (o_cap s) as [c|]; cbn [o_bad o_cap o_data o_pos].
  - set (r := (c - o_pos s)%nat). destruct (Nat.ltb_spec (length (firstn r a)) (length a)) as [H|H].
    + rewrite firstn_length in H. assert (Hr : (r < length a)%nat) by lia.
      rewrite firstn_app. replace (r - length a)%nat with 0%nat by lia. rewrite firstn_O, app_nil_r. f_equal.
      rewrite firstn_length, app_length. apply Nat.ltb_lt. lia.
    + rewrite firstn_length in H. assert (Hr : (length a <= r)%nat) by lia.
      rewrite firstn_app, (firstn_all2 a) by lia. replace (c - (o_pos s + length a))%nat with (r - length a)%nat by (unfold r; lia).
      f_equal; [apply splice_app|rewrite !app_length; lia|].
      rewrite !app_length. set (u := length (firstn (r - length a) b)).
      destruct (Nat.ltb_spec (length a + u) (length a + length b)), (Nat.ltb_spec u (length b)); lia || reflexivity.
  - rewrite !Nat.ltb_irrefl. f_equal; [apply splice_app|rewrite app_length; lia].
Qed.
Lemma seek_end_at s : good_out s -> seek_end s = mkOut (o_data s) (length (o_data s)) false None.
Proof. intros (B & C). unfold seek_end. now rewrite B, C. Qed.
Lemma seek_end_at_end s : good_out s -> at_end (seek_end s).
Proof. intros H. rewrite seek_end_at by assumption. now split. Qed.
Lemma at_end_good s : at_end s -> good_out s. Proof. now intros (? & ? & ?). Qed.
Lemma tell64_good s : good_out s -> tell64 s = Z.of_nat (o_pos s) mod 2 ^ 64.
Proof. intros (B & _). unfold tell64, to_u. now rewrite B. Qed.
Lemma tell64_small s : good_out s -> Z.of_nat (o_pos s) < 2 ^ 64 -> tell64 s = Z.of_nat (o_pos s).
Proof. intros G H. rewrite tell64_good by assumption. apply Z.mod_small. lia. Qed.
Lemma tell64_bad s : o_bad s = true -> tell64 s = 2 ^ 64 - 1.
Proof. intros B. unfold tell64. now rewrite B. Qed.
