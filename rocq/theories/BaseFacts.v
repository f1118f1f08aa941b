(* BaseFacts.v - lemmas about Base.v *)
From Verif Require Export Base.
From Coq Require Import ZifyBool ZifyNat.

Ltac zdm := Z.div_mod_to_equations.

Lemma in_range_spec lo hi v : in_range lo hi v = true <-> lo <= v <= hi.
Proof. unfold in_range; lia. Qed.

Lemma le_enc_length n v : length (le_enc n v) = n.
Proof. revert v; induction n as [|n IH]; intros v; cbn [le_enc length]; auto. Qed.

Lemma le_enc_wf n v : wf_bytes (le_enc n v).
Proof.
  revert v; induction n as [|n IH]; intros v; cbn [le_enc]; constructor; [|apply IH].
  pose proof (Z.mod_pos_bound v 256 ltac:(lia)); lia.
Qed.

Lemma le_dec_enc n v : le_dec (le_enc n v) = v mod 2 ^ (8 * Z.of_nat n).
Proof.
  revert v; induction n as [|n IH]; intros v; cbn [le_enc le_dec].
  - cbn. now rewrite Z.mod_1_r.
  - rewrite IH.
    replace (8 * Z.of_nat (S n)) with (8 + 8 * Z.of_nat n) by lia.
    rewrite Z.pow_add_r by lia. change (2 ^ 8) with 256.
    rewrite Z.rem_mul_r by (try apply Z.pow_nonzero; lia). lia.
Qed.

Lemma le_dec_bound b : wf_bytes b -> 0 <= le_dec b < 2 ^ (8 * Z.of_nat (length b)).
Proof.
  induction b as [|x b IH]; intros H; cbn [le_dec length].
  - cbn; lia.
  - inversion H as [|? ? Hx Hb]; subst. specialize (IH Hb).
    replace (8 * Z.of_nat (S (length b))) with (8 + 8 * Z.of_nat (length b)) by lia.
    rewrite Z.pow_add_r by lia. change (2 ^ 8) with 256. lia.
Qed.

Lemma le_enc_dec b : wf_bytes b -> le_enc (length b) (le_dec b) = b.
Proof.
  induction b as [|x b IH]; intros H; cbn [le_dec length le_enc]; auto.
  inversion H as [|? ? Hx Hb]; subst.
  replace ((x + 256 * le_dec b) mod 256) with x.
  2:{ rewrite (Z.mul_comm 256), Z_mod_plus_full. symmetry; apply Z.mod_small; lia. }
  replace ((x + 256 * le_dec b) / 256) with (le_dec b).
  2:{ rewrite (Z.mul_comm 256), Z_div_plus_full by lia. rewrite Z.div_small by lia. lia. }
  now rewrite IH.
Qed.

Lemma take_bytes_app n a b : length a = n -> take_bytes n (a ++ b) = Some (a, b).
Proof.
  intros <-. unfold take_bytes. rewrite app_length.
  destruct (Nat.leb_spec (length a) (length a + length b)); [|lia].
  rewrite firstn_app, Nat.sub_diag, firstn_all, firstn_O, app_nil_r.
  rewrite skipn_app, Nat.sub_diag, skipn_all. reflexivity.
Qed.

Lemma dec_u_enc n v r : 0 <= v < 2 ^ (8 * Z.of_nat n) -> dec_u n (le_enc n v ++ r) = Some (v, r).
Proof.
  intros H. unfold dec_u. rewrite take_bytes_app by apply le_enc_length.
  rewrite le_dec_enc, Z.mod_small by lia. reflexivity.
Qed.

Lemma to_s_small n v : 0 < n -> - 2 ^ (n - 1) <= v < 2 ^ (n - 1) -> to_s n (v mod 2 ^ n) = v.
Proof.
  intros Hn H. unfold to_s.
  assert (Hp : 2 ^ n = 2 * 2 ^ (n - 1)).
  { rewrite <- Z.pow_succ_r by lia. f_equal. lia. }
  assert (0 < 2 ^ (n - 1)) by (apply Z.pow_pos_nonneg; lia).
  rewrite Z.mod_mod by lia.
  destruct (Z_lt_ge_dec v 0) as [Hv|Hv].
  - replace (v mod 2 ^ n) with (v + 2 ^ n).
    2:{ symmetry. rewrite <- (Z_mod_plus_full v 1 (2 ^ n)).
        rewrite Z.mul_1_l. apply Z.mod_small. lia. }
    destruct (Z.ltb_spec (v + 2 ^ n) (2 ^ (n - 1))); lia.
  - rewrite Z.mod_small by lia.
    destruct (Z.ltb_spec v (2 ^ (n - 1))); lia.
Qed.

Lemma to_s_id n v : 0 < n -> - 2 ^ (n - 1) <= v < 2 ^ (n - 1) -> to_s n v = v.
Proof.
  intros Hn H. rewrite <- (to_s_small n v Hn H) at 2.
  unfold to_s. rewrite Z.mod_mod; [reflexivity|].
  apply Z.pow_nonzero; lia.
Qed.

Lemma to_s_range n v : 0 < n -> - 2 ^ (n - 1) <= to_s n v < 2 ^ (n - 1).
Proof.
  intros Hn. unfold to_s.
  assert (Hp : 2 ^ n = 2 * 2 ^ (n - 1)).
  { rewrite <- Z.pow_succ_r by lia. f_equal. lia. }
  assert (0 < 2 ^ (n - 1)) by (apply Z.pow_pos_nonneg; lia).
  pose proof (Z.mod_pos_bound v (2 ^ n) ltac:(lia)).
  destruct (Z.ltb_spec (v mod 2 ^ n) (2 ^ (n - 1))); lia.
Qed.

Lemma to_s_mod n v : 0 < n -> (to_s n v) mod 2 ^ n = v mod 2 ^ n.
Proof.
  intros Hn. unfold to_s.
  assert (0 < 2 ^ n) by (apply Z.pow_pos_nonneg; lia).
  destruct (v mod 2 ^ n <? 2 ^ (n - 1)).
  - now rewrite Z.mod_mod by lia.
  - rewrite <- (Z_mod_plus_full (v mod 2 ^ n - 2 ^ n) 1 (2 ^ n)).
    replace (v mod 2 ^ n - 2 ^ n + 1 * 2 ^ n) with (v mod 2 ^ n) by lia.
    now rewrite Z.mod_mod by lia.
Qed.

Lemma dec_s_enc n v r : (0 < n)%nat ->
  - 2 ^ (8 * Z.of_nat n - 1) <= v < 2 ^ (8 * Z.of_nat n - 1) -> dec_s n (le_enc n v ++ r) = Some (v, r).
Proof.
  intros Hn H. unfold dec_s. rewrite take_bytes_app by apply le_enc_length.
  rewrite le_dec_enc, to_s_small by lia. reflexivity.
Qed.

Lemma le_enc_mod n v w : v mod 2 ^ (8 * Z.of_nat n) = w mod 2 ^ (8 * Z.of_nat n) -> le_enc n v = le_enc n w.
Proof.
  intros H.
  assert (forall v, le_enc n v = le_enc n (v mod 2 ^ (8 * Z.of_nat n))) as E.
  { clear. intros v. rewrite <- le_dec_enc.
    pose proof (le_enc_dec (le_enc n v) (le_enc_wf n v)) as E.
    rewrite le_enc_length in E. now rewrite E. }
  rewrite (E v), (E w), H. reflexivity.
Qed.

Lemma take_bytes_some n b x r : take_bytes n b = Some (x, r) -> b = x ++ r /\ length x = n.
Proof.
  unfold take_bytes. destruct (Nat.leb_spec n (length b)); [|discriminate].
  intros E; inversion E; subst. split.
  - now rewrite firstn_skipn.
  - rewrite firstn_length; lia.
Qed.

Lemma bind_ok {A B} (m : outcome A) (f : A -> outcome B) b :
  bind m f = Ok b <-> exists a, m = Ok a /\ f a = Ok b.
Proof.
  destruct m as [a| |]; cbn; split.
  - intros H; eauto.
  - intros (a' & E & H). congruence.
  - discriminate.
  - intros (? & ? & _); discriminate.
  - discriminate.
  - intros (? & ? & _); discriminate.
Qed.

Lemma require_ok b : require b = Ok tt <-> b = true.
Proof. destruct b; cbn; split; intros; congruence. Qed.

Lemma mapM_ok_length {A B} (f : A -> outcome B) l bs : mapM f l = Ok bs -> length bs = length l.
Proof.
  revert bs; induction l as [|a l IH]; intros bs; cbn [mapM].
  - intros E; inversion E; reflexivity.
  - rewrite bind_ok. intros (b & _ & H). rewrite bind_ok in H.
    destruct H as (bs' & E & H). inversion H; subst. cbn. f_equal. now apply IH.
Qed.

Lemma mapM_ok_Forall2 {A B} (f : A -> outcome B) l bs :
  mapM f l = Ok bs <-> Forall2 (fun a b => f a = Ok b) l bs.
Proof.
  revert bs; induction l as [|a l IH]; intros bs; cbn [mapM].
  - split.
    + intros E; inversion E; constructor.
    + intros H; inversion H; reflexivity.
  - rewrite bind_ok. split.
    + intros (b & Eb & H). rewrite bind_ok in H. destruct H as (bs' & E & H).
      inversion H; subst. constructor; auto. now apply IH.
    + intros H; inversion H as [|? b ? bs' Hb Hbs]; subst. exists b; split; auto.
      rewrite bind_ok. exists bs'; split; auto. now apply IH.
Qed.

Lemma wf_bytes_app a b : wf_bytes (a ++ b) <-> wf_bytes a /\ wf_bytes b.
Proof. apply Forall_app. Qed.

Lemma zeros_length n : length (zeros n) = n.
Proof. apply repeat_length. Qed.
