(* ProofPickle.v - C58 *)
From Verif Require Import BaseFacts ModelFloat ModelKey ModelEntry ModelGeom ModelPoint ModelHeader ModelPickle.
From Coq Require Import ZifyBool.
Open Scope Z_scope.

Lemma utf8_roundtrip s : forall t, utf8_dec s = Some t -> utf8_enc t = s.
Proof.
  assert (G : forall n s, (length s <= n)%nat -> forall t, utf8_dec s = Some t -> utf8_enc t = s); [|eauto].
  induction n as [|n IH]; intros [|a r] L t E; cbn [length] in L; try lia; cbn [utf8_dec] in E; try (injection E as <-; reflexivity).
  destruct ((0 <=? a) && (a <? 128)) eqn:A1.
  { destruct (utf8_dec r) as [u|] eqn:D; [|discriminate]. injection E as <-. cbn [utf8_enc flat_map]. fold (utf8_enc u). rewrite (IH r) by (auto; lia).
    unfold utf8_enc1. replace (a <? 128) with true by lia. reflexivity. }
  destruct ((194 <=? a) && (a <=? 223)) eqn:A2.
  { destruct r as [|b r]; [discriminate|]. unfold cont in E. destruct ((128 <=? b) && (b <=? 191)) eqn:B; [|discriminate].
    destruct (utf8_dec r) as [u|] eqn:D; [|discriminate]. injection E as <-. cbn [utf8_enc flat_map]. fold (utf8_enc u). cbn [length] in L. rewrite (IH r) by (auto; lia).
    unfold utf8_enc1. set (cp := (a - 192) * 64 + (b - 128)). replace (cp <? 128) with false by lia. replace (cp <? 2048) with true by lia. cbn [app].
    repeat (apply (f_equal2 cons); [unfold cp; Z.to_euclidean_division_equations; lia|]). reflexivity. }
  destruct ((224 <=? a) && (a <=? 239)) eqn:A3.
  { destruct r as [|b [|c r]]; try discriminate. unfold cont in E. cbv zeta in E. set (cp := (a - 224) * 4096 + (b - 128) * 64 + (c - 128)) in *.
    destruct (_ && _) eqn:B in E; [|discriminate].
    destruct (utf8_dec r) as [u|] eqn:D; [|discriminate]. injection E as <-. cbn [utf8_enc flat_map]. fold (utf8_enc u). cbn [length] in L. rewrite (IH r) by (auto; lia).
    unfold utf8_enc1. replace (cp <? 128) with false by lia. replace (cp <? 2048) with false by lia. replace (cp <? 65536) with true by lia. cbn [app].
    repeat (apply (f_equal2 cons); [unfold cp; Z.to_euclidean_division_equations; lia|]). reflexivity. }
  destruct ((240 <=? a) && (a <=? 244)) eqn:A4; [|discriminate].
  destruct r as [|b [|c [|d r]]]; try discriminate. unfold cont in E. cbv zeta in E.
  set (cp := (a - 240) * 262144 + (b - 128) * 4096 + (c - 128) * 64 + (d - 128)) in *.
  destruct (_ && _) eqn:B in E; [|discriminate].
  destruct (utf8_dec r) as [u|] eqn:D; [|discriminate]. injection E as <-. cbn [utf8_enc flat_map]. fold (utf8_enc u). cbn [length] in L. rewrite (IH r) by (auto; lia).
  unfold utf8_enc1. replace (cp <? 128) with false by lia. replace (cp <? 2048) with false by lia. replace (cp <? 65536) with false by lia. cbn [app].
  repeat (apply (f_equal2 cons); [unfold cp; Z.to_euclidean_division_equations; lia|]). reflexivity.
Qed.

Lemma pickle_bytes b : setstate_bytes (getstate_bytes b) = Ok b.
Proof. reflexivity. Qed.
Lemma cast_int_ok lo hi z : lo <= z <= hi -> cast_int lo hi (PyInt z) = Ok z.
Proof. intros H. unfold cast_int. replace ((lo <=? z) && (z <=? hi)) with true by lia. reflexivity. Qed.
Lemma pickle_key k : wf_key k = true -> setstate_key (getstate_key k) = Ok k.
Proof.
  unfold wf_key, i32, in_range, INT32_MIN, INT32_MAX. intros H. unfold setstate_key, getstate_key, cast_i32. rewrite !cast_int_ok by lia. destruct k; reflexivity.
Qed.
Lemma pickle_vec v : setstate_vec (getstate_vec v) = Ok v.
Proof. destruct v; reflexivity. Qed.
Lemma pickle_node n : wf_entry (pn_entry n) = true -> wf_key (pn_page n) = true -> setstate_node (getstate_node n) = Ok n.
Proof.
  unfold wf_entry, u64, i32, in_range, INT32_MIN, INT32_MAX. intros H Hp. unfold setstate_node, getstate_node, cast_key. cbn [Nat.eqb cls_key].
  rewrite !pickle_key by first [assumption | lia]. cbn [bind]. unfold cast_u64, cast_i32. rewrite !cast_int_ok by lia. cbn [bind]. destruct n as [[? ? ? ?] ?]; reflexivity.
Qed.
Lemma mapM_u64 l : Forall (fun v => 0 <= v < 2 ^ 64) l -> mapM cast_u64 (map PyInt l) = Ok l.
Proof.
  induction 1 as [|v l H _ IH]; [reflexivity|]. cbn [map mapM]. unfold cast_u64 at 1. rewrite cast_int_ok by (change (2 ^ 64) with 18446744073709551616 in H; lia).
  cbn [bind]. rewrite IH. reflexivity.
Qed.
Lemma pickle_header h : wf_hdr h -> (length (h_guid h) <= 16)%nat -> (length (h_sys h) <= 32)%nat -> (length (h_gen h) <= 32)%nat ->
  utf8_dec (h_guid h) <> None -> utf8_dec (h_sys h) <> None -> utf8_dec (h_gen h) <> None ->
  exists st, getstate_header h = Ok st /\ setstate_header st = Ok h.
Proof.
  intros (H1 & H2 & H3 & H4 & P & PF & H5 & H6 & H7 & H8 & H9 & H10 & H11 & _) LG LS LN UG US UN.
  destruct (utf8_dec (h_guid h)) as [g|] eqn:EG; [|congruence]. destruct (utf8_dec (h_sys h)) as [s|] eqn:ES; [|congruence].
  destruct (utf8_dec (h_gen h)) as [n|] eqn:EN; [|congruence].
  unfold getstate_header, to_str. rewrite EG, ES, EN. cbn [bind]. eexists. split; [reflexivity|].
  unfold setstate_header, cast_i8, cast_u16, cast_u32. change (2 ^ 64) with 18446744073709551616 in *. change (2 ^ 32) with 4294967296 in *.
  rewrite !cast_int_ok by lia. unfold cast_vec. cbn [Nat.eqb cls_vector]. rewrite !pickle_vec. cbn [bind cast_bool cast_str].
  rewrite (utf8_roundtrip _ _ EG), (utf8_roundtrip _ _ ES), (utf8_roundtrip _ _ EN).
  unfold cast_u64. rewrite !cast_int_ok by lia. cbn [bind]. unfold cast_array15. rewrite map_length, P. cbn [Nat.eqb].
  rewrite mapM_u64 by exact PF. cbn [bind]. unfold set_guid.
  replace ((16 <? length (h_guid h))%nat) with false by lia. cbn [bind]. unfold set_system_identifier.
  replace ((32 <? length (h_sys h))%nat) with false by lia. cbn [bind]. unfold set_generating_software.
  replace ((32 <? length (h_gen h))%nat) with false by lia. destruct h; reflexivity.
Qed.
Lemma pickle_header_not_utf8 h : utf8_dec (h_guid h) = None -> getstate_header h = Throw.
Proof. intros H. unfold getstate_header, to_str. rewrite H. reflexivity. Qed.
