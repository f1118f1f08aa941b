(* ProofHeader.v - LAS header round trip (C17, C18) *)
From Verif Require Import BaseFacts ModelFloat ModelGeom ModelPoint ModelHeader SpecPoint SpecHeader ProofFloat ProofPoint.
From Coq Require Import ZifyBool.
Open Scope Z_scope.

Lemma before_nul_id s : ~ In 0 s -> before_nul s = s.
Proof.
  induction s as [|c s IH]; cbn; intros H; auto. destruct (c =? 0) eqn:E; [exfalso; apply H; left; lia|].
  rewrite IH; auto.
Qed.
Lemma before_nul_app s n : ~ In 0 s -> (0 < n)%nat -> before_nul (s ++ zeros n) = s.
Proof.
  intros H Hn. induction s as [|c s IH]; cbn [app].
  - destruct n; [lia|]. reflexivity.
  - cbn [before_nul]. destruct (c =? 0) eqn:E; [exfalso; apply H; left; lia|]. rewrite IH; auto. intros I; apply H; now right.
Qed.
Lemma before_nul_no0 s : ~ In 0 (before_nul s).
Proof. induction s as [|c s IH]; cbn; auto. destruct (c =? 0) eqn:E; cbn; [tauto|]. intros [->|I]; [lia|auto]. Qed.
Lemma strncpy_length n s : length (strncpy n s) = n.
Proof. unfold strncpy. cbv zeta. rewrite app_length, zeros_length. pose proof (firstn_le_length n (before_nul s)). lia. Qed.
Lemma existsb_zeros n : (0 < n)%nat -> existsb (Z.eqb 0) (zeros n) = true.
Proof. destruct n; [lia|]. reflexivity. Qed.
Lemma cstr_strncpy n s : ~ In 0 s -> (length s < n)%nat -> cstr (strncpy n s) = Ok s.
Proof.
  intros H L. unfold cstr, strncpy, bytes, byte in *. rewrite before_nul_id by assumption. cbv zeta. rewrite firstn_all2 by lia.
  rewrite existsb_app, existsb_zeros, orb_true_r by lia. now rewrite before_nul_app by (auto; lia).
Qed.
Lemma cstr_full n s : ~ In 0 s -> length s = n -> cstr (strncpy n s) = UB.
Proof.
  intros H L. unfold cstr, strncpy, bytes, byte in *. rewrite before_nul_id by assumption. cbv zeta. rewrite firstn_all2 by lia.
  rewrite L, Nat.sub_diag. cbn [zeros repeat]. rewrite app_nil_r. destruct (existsb (Z.eqb 0) s) eqn:E; auto.
  apply existsb_exists in E. destruct E as (x & I & E). exfalso. apply H. assert (x = 0) by lia. now subst.
Qed.
Lemma strncpy_wf n s : wf_bytes s -> wf_bytes (strncpy n s).
Proof.
  intros H. unfold strncpy. apply wf_bytes_app. split; [|apply wf_zeros].
  assert (B : wf_bytes (before_nul s)).
  { induction s as [|c s IH]; cbn; [constructor|]. inversion H; subst. destruct (c =? 0); [constructor|]. constructor; auto. apply IH; auto. }
  unfold wf_bytes in *. rewrite Forall_forall in *. intros x I. apply B.
  rewrite <- (firstn_skipn n (before_nul s)). apply in_or_app. now left.
Qed.

Lemma dec_many_enc {A} (d : bytes -> option (A * bytes)) (e : A -> bytes) l r :
  (forall v r, In v l -> d (e v ++ r) = Some (v, r)) -> dec_many (length l) d (flat_map e l ++ r) = Some (l, r).
Proof.
  induction l as [|v l IH]; intros H; cbn [length flat_map dec_many app]; auto.
  rewrite <- app_assoc, H by now left. rewrite IH; auto. intros w s I. apply H. now right.
Qed.
Lemma flat_map_length_const {A} (e : A -> bytes) n l : (forall v, length (e v) = n) -> length (flat_map e l) = (n * length l)%nat.
Proof. intros H. induction l as [|v l IH]; cbn; [lia|]. rewrite app_length, H, IH. lia. Qed.

Lemma enc_f64_length x : length (enc_f64 x) = 8%nat.
Proof. unfold enc_f64. apply le_enc_length. Qed.
Lemma enc_vec_length v : length (enc_vec v) = 24%nat.
Proof. unfold enc_vec. rewrite !app_length, !enc_f64_length. reflexivity. Qed.
Lemma enc_minmax_length a b : length (enc_minmax a b) = 48%nat.
Proof. unfold enc_minmax. rewrite !app_length, !enc_f64_length. reflexivity. Qed.
Lemma dec_vec_enc v r : dec_vec (enc_vec v ++ r) = Some (v, r).
Proof. unfold dec_vec, enc_vec. rewrite <- !app_assoc. rewrite !dec_f64_enc. destruct v; reflexivity. Qed.

(* a lazperf header whose fields fit their widths *)
Definition wf_h14 (l : header14) : Prop :=
  0 <= l_src l < 65536 /\ 0 <= l_enc l < 65536 /\ length (l_guid l) = 16%nat /\ 0 <= l_major l < 256 /\ 0 <= l_minor l < 256 /\
  length (l_sys l) = 32%nat /\ length (l_gen l) = 32%nat /\ 0 <= l_day l < 65536 /\ 0 <= l_year l < 65536 /\
  0 <= l_hsize l < 65536 /\ 0 <= l_poff l < 2 ^ 32 /\ 0 <= l_vlrs l < 2 ^ 32 /\ 0 <= l_fmt l < 256 /\ 0 <= l_reclen l < 65536 /\
  0 <= l_pcount l < 2 ^ 32 /\ length (l_pbr5 l) = 5%nat /\ Forall (fun v => 0 <= v < 2 ^ 32) (l_pbr5 l) /\
  0 <= l_wave l < 2 ^ 64 /\ 0 <= l_evoff l < 2 ^ 64 /\ 0 <= l_evcnt l < 2 ^ 32 /\ 0 <= l_pc14 l < 2 ^ 64 /\
  length (l_pbr14 l) = 15%nat /\ Forall (fun v => 0 <= v < 2 ^ 64) (l_pbr14 l).

Lemma enc_header14_length l : wf_h14 l -> length (enc_header14 l) = 375%nat.
Proof.
  intros (_ & _ & G & _ & _ & S & N & _ & _ & _ & _ & _ & _ & _ & _ & P5 & _ & _ & _ & _ & _ & P14 & _).
  unfold enc_header14. rewrite !app_length, G, S, N, !enc_vec_length, enc_minmax_length.
  rewrite (flat_map_length_const enc_u32 4), (flat_map_length_const enc_u64 8), P5, P14 by (intros; apply le_enc_length).
  unfold enc_u8, enc_u16, enc_u32, enc_u64. rewrite !le_enc_length. reflexivity.
Qed.

Lemma dec_enc_header14 l r : wf_h14 l -> dec_header14 (enc_header14 l ++ r) = Some (LASF, l, r).
Proof.
  intros (A1 & A2 & G & A3 & A4 & S & N & A5 & A6 & A7 & A8 & A9 & A10 & A11 & A12 & P5 & F5 & A13 & A14 & A15 & A16 & P14 & F14).
  unfold dec_header14, enc_header14. rewrite <- !app_assoc.
  rewrite (take_bytes_app 4) by reflexivity. cbn beta iota.
  rewrite !dec_u16_enc by assumption. rewrite (take_bytes_app 16) by assumption.
  rewrite !dec_u8_enc by assumption. rewrite (take_bytes_app 32) by assumption. rewrite (take_bytes_app 32) by assumption.
  rewrite !dec_u16_enc by assumption. rewrite !dec_u32_enc by assumption. rewrite !dec_u8_enc by assumption.
  rewrite !dec_u16_enc by assumption. rewrite !dec_u32_enc by assumption.
  rewrite <- P5 at 1. rewrite dec_many_enc.
  2:{ intros v r' I. apply dec_u32_enc. rewrite Forall_forall in F5. auto. }
  rewrite !dec_vec_enc. unfold enc_minmax. rewrite <- !app_assoc. rewrite !dec_f64_enc.
  rewrite !dec_u64_enc by assumption. rewrite !dec_u32_enc by assumption. rewrite !dec_u64_enc by assumption.
  rewrite <- P14 at 1. rewrite dec_many_enc.
  2:{ intros v r' I. apply dec_u64_enc. rewrite Forall_forall in F14. auto. }
  destruct l as [? ? ? ? ? ? ? ? ? ? ? ? ? ? ? ? ? ? [? ? ?] [? ? ?] ? ? ? ? ?]. reflexivity.
Qed.

Lemma lor_range a b n : 0 <= n -> 0 <= a < 2 ^ n -> 0 <= b < 2 ^ n -> 0 <= Z.lor a b < 2 ^ n.
Proof.
  intros Hn Ha Hb. assert (N : 0 <= Z.lor a b) by (apply Z.lor_nonneg; lia). split; [exact N|].
  destruct (Z.eq_dec (Z.lor a b) 0) as [->|NZ]; [lia|].
  destruct (Z.eq_dec n 0) as [->|Hn0]; [assert (a = 0) by lia; assert (b = 0) by lia; subst; exfalso; apply NZ; reflexivity|].
  apply Z.log2_lt_pow2; [lia|]. rewrite Z.log2_lor by lia.
  apply Z.max_lub_lt.
  - destruct (Z.eq_dec a 0) as [->|]; [cbn; lia|]. apply Z.log2_lt_pow2; lia.
  - destruct (Z.eq_dec b 0) as [->|]; [cbn; lia|]. apply Z.log2_lt_pow2; lia.
Qed.

Lemma fmt_mask f : -128 <= f < 128 -> 0 <= f < 64 ->
  Z.land (Z.lor (to_u 8 f) 128) 63 = f /\ Z.land (Z.lor (to_u 8 f) 128) 128 =? 0 = false.
Proof.
  intros _ H. unfold to_u. rewrite Z.mod_small by lia. split.
  - rewrite Z.land_lor_distr_l. change (Z.land 128 63) with 0. rewrite Z.lor_0_r.
    change 63 with (Z.ones 6). rewrite Z.land_ones by lia. apply Z.mod_small. lia.
  - rewrite Z.land_lor_distr_l. change (Z.land 128 128) with 128. apply Z.eqb_neq. intros E.
    apply Z.lor_eq_0_iff in E. lia.
Qed.


Lemma to_lazperf_wf h po pc eo ec eb ex l : wf_hdr h -> fits po pc eo ec -> to_lazperf h po pc eo ec eb ex = Ok l -> wf_h14 l.
Proof.
  intros (H1 & H2 & H3 & H4 & P & PF & H5 & H6 & _ & _ & _ & _ & _ & G & S & N) (F1 & F2 & F3 & F4) E.
  unfold to_lazperf in E. apply bind_ok in E. destruct E as (v & Ev & E). injection E as <-.
  assert (V : 1 <= v <= 5) by (destruct eb, ex, (h_copc h); try discriminate Ev; injection Ev as <-; lia).
  unfold wf_h14. cbn [l_src l_enc l_guid l_major l_minor l_sys l_gen l_day l_year l_hsize l_poff l_vlrs l_fmt l_reclen l_pcount l_pbr5 l_wave l_evoff l_evcnt l_pc14 l_pbr14].
  rewrite !strncpy_length.
  assert (Z.lor (h_enc h) 16 < 2 ^ 16 /\ 0 <= Z.lor (h_enc h) 16) by (pose proof (lor_range (h_enc h) 16 16); lia).
  assert (B : 0 <= to_u 8 (h_fmt h) < 2 ^ 8) by (unfold to_u; apply Z.mod_pos_bound; lia).
  assert (0 <= Z.lor (to_u 8 (h_fmt h)) 128 < 2 ^ 8) by (apply lor_range; lia).
  assert (0 <= to_u 32 po < 2 ^ 32) by (unfold to_u; apply Z.mod_pos_bound; lia).
  unfold HEADER_SIZE. repeat split; auto; try lia.
  - destruct (UINT32_MAX <? pc) eqn:E; unfold UINT32_MAX in *; lia.
  - destruct (UINT32_MAX <? pc) eqn:E; unfold UINT32_MAX in *; lia.
  - repeat constructor; lia.
Qed.

Definition h14_masked (l : header14) : header14 :=
  mkH14 (l_src l) (l_enc l) (l_guid l) (l_major l) (l_minor l) (l_sys l) (l_gen l) (l_day l) (l_year l)
        (l_hsize l) (l_poff l) (l_vlrs l) (Z.land (l_fmt l) 63) (l_reclen l) (l_pcount l) (l_pbr5 l)
        (l_scale l) (l_offset l) (l_max l) (l_min l) (l_wave l) (l_evoff l) (l_evcnt l) (l_pc14 l) (l_pbr14 l).

Lemma read_header14_enc l r : wf_h14 l -> Z.land (l_fmt l) 128 =? 0 = false ->
  read_header14 (enc_header14 l ++ r) = Ok (h14_masked l).
Proof.
  intros W C. unfold read_header14. rewrite dec_enc_header14 by assumption.
  destruct (list_eq_dec Z.eq_dec LASF LASF) as [_|n]; [|congruence]. cbn [negb]. rewrite C. reflexivity.
Qed.



Lemma header_roundtrip h po pc eo ec eb ex l r : wf_hdr h -> fits po pc eo ec -> 6 <= h_fmt h <= 8 ->
  id_string 16 (h_guid h) -> id_string 32 (h_sys h) -> id_string 32 (h_gen h) ->
  to_lazperf h po pc eo ec eb ex = Ok l ->
  length (enc_header14 l) = 375%nat /\
  read_las_header (enc_header14 l ++ r) =
    Ok (mkHdr (h_src h) (Z.lor (h_enc h) 16) (h_day h) (h_year h) (h_max h) (h_min h) (h_pbr h) (h_scale h) (h_offset h)
          (h_fmt h) (h_reclen h) pc po (announced_vlrs (h_copc h) eb ex) eo ec (h_guid h) (h_sys h) (h_gen h) true).
Proof.
  intros W F Hf (G1 & G2) (S1 & S2) (N1 & N2) E. pose proof (to_lazperf_wf _ _ _ _ _ _ _ _ W F E) as WL.
  split; [now apply enc_header14_length|].
  assert (EF : l_fmt l = Z.lor (to_u 8 (h_fmt h)) 128).
  { unfold to_lazperf in E. apply bind_ok in E. destruct E as (v & _ & E). injection E as <-. reflexivity. }
  destruct (fmt_mask (h_fmt h)) as (M1 & M2); [lia|lia|].
  unfold read_las_header. rewrite read_header14_enc by (auto; now rewrite EF).
  cbn [bind]. unfold to_lazperf in E. apply bind_ok in E. destruct E as (v & Ev & E). injection E as <-.
  assert (V : v = announced_vlrs (h_copc h) eb ex).
  { unfold announced_vlrs. destruct eb, ex, (h_copc h); try discriminate Ev; injection Ev as <-; lia. }
  unfold h14_masked, from_lazperf.
  cbn [l_src l_enc l_guid l_major l_minor l_sys l_gen l_day l_year l_hsize l_poff l_vlrs l_fmt l_reclen l_pcount l_pbr5 l_wave l_evoff l_evcnt l_pc14 l_pbr14 l_scale l_offset l_max l_min].
  rewrite M1, !cstr_strncpy by assumption.
  assert (B : Z.land (Z.lor (h_enc h) 16) 16 =? 0 = false).
  { rewrite Z.land_lor_distr_l. change (Z.land 16 16) with 16. apply Z.eqb_neq. intros X. apply Z.lor_eq_0_iff in X. lia. }
  rewrite B. cbn [negb require bind Z.eqb andb]. change (HEADER_SIZE =? HEADER_SIZE) with true. change (1 =? 1) with true. change (4 =? 4) with true.
  cbn [andb require bind]. replace ((6 <=? h_fmt h) && (h_fmt h <=? 8)) with true by lia. cbn [require bind].
  unfold to_u. rewrite Z.mod_small by (destruct F; lia). subst v. reflexivity.
Qed.

Lemma header_written_length h po pc eo ec eb ex l : wf_hdr h -> fits po pc eo ec -> to_lazperf h po pc eo ec eb ex = Ok l ->
  length (enc_header14 l) = 375%nat.
Proof. intros. eapply enc_header14_length, to_lazperf_wf; eauto. Qed.

Lemma to_lazperf_defined h po pc eo ec eb ex : (ex = true -> h_copc h = true) -> exists l, to_lazperf h po pc eo ec eb ex = Ok l.
Proof. intros H. unfold to_lazperf. destruct ex; [rewrite H by reflexivity|]; cbn [bind]; eauto. Qed.

Lemma accepted_header file h : read_las_header file = Ok h ->
  exists magic l r, dec_header14 file = Some (magic, l, r) /\ magic = LASF /\
    Z.testbit (l_enc l) 4 = true /\ l_major l = 1 /\ l_minor l = 4 /\ l_hsize l = 375 /\ 6 <= Z.land (l_fmt l) 63 <= 8.
Proof.
  unfold read_las_header, read_header14. intros H. apply bind_ok in H. destruct H as (l' & E & H).
  destruct (dec_header14 file) as [((magic & l) & r)|] eqn:D; [|discriminate].
  exists magic, l, r. split; [reflexivity|].
  destruct (list_eq_dec Z.eq_dec magic LASF) as [->|]; [|discriminate]. cbn [negb] in E.
  destruct (Z.land (l_fmt l) 128 =? 0); [discriminate|]. injection E as <-.
  unfold from_lazperf in H. cbn [l_src l_enc l_guid l_major l_minor l_sys l_gen l_day l_year l_hsize l_poff l_vlrs l_fmt l_reclen l_pcount l_pbr5 l_wave l_evoff l_evcnt l_pc14 l_pbr14 l_scale l_offset l_max l_min] in H.
  apply bind_ok in H. destruct H as (? & H1 & H). apply bind_ok in H. destruct H as (g & H2 & H).
  apply bind_ok in H. destruct H as (? & H3 & H). apply bind_ok in H. destruct H as (s & H4 & H).
  apply bind_ok in H. destruct H as (n & H5 & H). apply bind_ok in H. destruct H as (? & H6 & H).
  apply bind_ok in H. destruct H as (? & H7 & H).
  destruct x, x0, x1, x2. rewrite require_ok in H1, H3, H6, H7.
  split; [reflexivity|]. split.
  { destruct (Z.testbit (l_enc l) 4) eqn:T; auto. exfalso.
    assert (Z.land (l_enc l) 16 = 0). { change 16 with (2 ^ 4). apply Z.bits_inj'. intros m Hm. rewrite Z.land_spec, Z.bits_0, Z.pow2_bits_eqb by lia.
      destruct (4 =? m) eqn:E4; [|apply andb_false_r]. assert (m = 4) by lia. subst m. now rewrite T. }
    rewrite H0 in H1. discriminate. }
  unfold HEADER_SIZE in *. lia.
Qed.

Lemma legacy_count h po pc eo ec eb ex l : to_lazperf h po pc eo ec eb ex = Ok l -> 
  l_pc14 l = pc /\ l_pcount l = (if pc <=? 4294967295 then pc else 0) /\ l_pbr5 l = [0; 0; 0; 0; 0] /\ l_pbr14 l = h_pbr h.
Proof.
  unfold to_lazperf. intros E. apply bind_ok in E. destruct E as (v & _ & E). injection E as <-.
  cbn [l_pc14 l_pcount l_pbr5 l_pbr14]. repeat split. unfold UINT32_MAX. destruct (4294967295 <? pc) eqn:A, (pc <=? 4294967295) eqn:B; lia.
Qed.

(* a GUID that fills its 16-byte field is written without a terminator: reading it back leaves the field *)
Lemma header_overread h po pc eo ec eb ex l r : wf_hdr h -> fits po pc eo ec -> 6 <= h_fmt h <= 8 ->
  ~ In 0 (h_guid h) -> length (h_guid h) = 16%nat -> to_lazperf h po pc eo ec eb ex = Ok l ->
  read_las_header (enc_header14 l ++ r) = UB.
Proof.
  intros W F Hf G1 G2 E. pose proof (to_lazperf_wf _ _ _ _ _ _ _ _ W F E) as WL.
  assert (EF : l_fmt l = Z.lor (to_u 8 (h_fmt h)) 128).
  { unfold to_lazperf in E. apply bind_ok in E. destruct E as (v & _ & E). injection E as <-. reflexivity. }
  destruct (fmt_mask (h_fmt h)) as (M1 & M2); [lia|lia|].
  unfold read_las_header. rewrite read_header14_enc by (auto; now rewrite EF).
  cbn [bind]. unfold to_lazperf in E. apply bind_ok in E. destruct E as (v & Ev & E). injection E as <-.
  unfold h14_masked, from_lazperf. cbn [l_src l_enc l_guid l_major l_minor l_sys l_gen l_fmt].
  assert (B : Z.land (Z.lor (h_enc h) 16) 16 =? 0 = false).
  { rewrite Z.land_lor_distr_l. change (Z.land 16 16) with 16. apply Z.eqb_neq. intros X. apply Z.lor_eq_0_iff in X. lia. }
  rewrite B. cbn [negb require bind]. rewrite cstr_full by assumption. reflexivity.
Qed.

Lemma skip_app {A} (a b : list A) n : length a = n -> skipn n (a ++ b) = b.
Proof. intros <-. rewrite skipn_app, skipn_all, Nat.sub_diag. reflexivity. Qed.
Lemma first_app {A} (a b : list A) n : length a = n -> firstn n (a ++ b) = a.
Proof. intros <-. rewrite firstn_app, firstn_all, Nat.sub_diag. cbn. apply app_nil_r. Qed.
Lemma legacy_on_disk h po pc eo ec eb ex l : wf_hdr h -> fits po pc eo ec -> to_lazperf h po pc eo ec eb ex = Ok l ->
  firstn 4 (skipn 107 (enc_header14 l)) = enc_u32 (if pc <=? 4294967295 then pc else 0) /\
  firstn 20 (skipn 111 (enc_header14 l)) = zeros 20 /\
  firstn 8 (skipn 247 (enc_header14 l)) = enc_u64 pc.
Proof.
  intros W F E. pose proof (to_lazperf_wf _ _ _ _ _ _ _ _ W F E) as WL. destruct (legacy_count _ _ _ _ _ _ _ _ E) as (L1 & L2 & L3 & L4).
  destruct WL as (_ & _ & G & _ & _ & S & N & _ & _ & _ & _ & _ & _ & _ & _ & P5 & _ & _ & _ & _ & _ & P14 & _).
  unfold enc_header14. rewrite L1, L2, L3.
  set (P := LASF ++ enc_u16 (l_src l) ++ enc_u16 (l_enc l) ++ l_guid l ++ enc_u8 (l_major l) ++ enc_u8 (l_minor l) ++
    l_sys l ++ l_gen l ++ enc_u16 (l_day l) ++ enc_u16 (l_year l) ++ enc_u16 (l_hsize l) ++ enc_u32 (l_poff l) ++
    enc_u32 (l_vlrs l) ++ enc_u8 (l_fmt l) ++ enc_u16 (l_reclen l)).
  set (C := enc_u32 (if pc <=? 4294967295 then pc else 0)).
  set (D := flat_map enc_u32 [0; 0; 0; 0; 0]).
  set (M := enc_vec (l_scale l) ++ enc_vec (l_offset l) ++ enc_minmax (l_max l) (l_min l) ++ enc_u64 (l_wave l) ++ enc_u64 (l_evoff l) ++ enc_u32 (l_evcnt l)).
  set (T := flat_map enc_u64 (l_pbr14 l)).
  match goal with |- context [firstn 4 (skipn 107 ?x)] => replace x with (P ++ C ++ D ++ M ++ enc_u64 pc ++ T) by (unfold P, M; rewrite <- !app_assoc; reflexivity) end.
  assert (LP : length P = 107%nat). { unfold P, enc_u8, enc_u16, enc_u32. rewrite !app_length, !le_enc_length, G, S, N. reflexivity. }
  assert (LC : length C = 4%nat) by apply le_enc_length. assert (LD : length D = 20%nat) by reflexivity.
  assert (LM : length M = 116%nat). { unfold M, enc_u64, enc_u32. rewrite !app_length, !enc_vec_length, enc_minmax_length, !le_enc_length. reflexivity. }
  split; [|split].
  - rewrite (skip_app P) by assumption. now apply first_app.
  - rewrite app_assoc. rewrite (skip_app (P ++ C)) by (rewrite app_length; lia). rewrite first_app by assumption. reflexivity.
  - replace (P ++ C ++ D ++ M ++ enc_u64 pc ++ T) with ((P ++ C ++ D ++ M) ++ enc_u64 pc ++ T) by (rewrite <- !app_assoc; reflexivity).
    rewrite (skip_app (P ++ C ++ D ++ M)) by (rewrite !app_length; lia). apply first_app. apply le_enc_length.
Qed.
