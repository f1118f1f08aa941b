(* ProofOpen.v - opening files *)
From Verif Require Import Base BaseFacts ModelFloat ModelKey ModelGeom ModelEntry ModelPoint ModelPoints ModelHeader ModelVlr ModelExtents ModelConfig
  ModelStream ModelWriter ModelReader SpecKey SpecPoint SpecWriter SpecHier SpecFile SpecReader SpecData ProofPoints ProofStream ProofReader ProofReader3.
Open Scope Z_scope.

Lemma take_some n b x r : take_bytes n b = Some (x, r) -> x = firstn n b /\ r = skipn n b.
Proof. unfold take_bytes. destruct (n <=? length b)%nat; [|discriminate]. intros E. injection E as <- <-. auto. Qed.
Lemma dec_u_take n b v r : dec_u n b = Some (v, r) -> v = le_dec (firstn n b) /\ r = skipn n b.
Proof. unfold dec_u. destruct (take_bytes n b) as [(x, y)|] eqn:Q; [|discriminate]. apply take_some in Q as (-> & ->). intros E. split; congruence. Qed.
Lemma dec_f64_skip b v r : dec_f64 b = Some (v, r) -> r = skipn 8 b.
Proof. unfold dec_f64. destruct (dec_u 8 b) as [(x, y)|] eqn:Q; [|discriminate]. apply dec_u_take in Q as (_ & ->). intros E. congruence. Qed.
Lemma dec_info_root b i r : dec_info b = Some (i, r) -> i_root_off i = le_dec (firstn 8 (skipn 40 b)) /\ i_root_size i = le_dec (firstn 8 (skipn 48 b)).
Proof.
  unfold dec_info. intros E. destruct (dec_f64 b) as [(a1, b1)|] eqn:E1; [|discriminate]. destruct (dec_f64 b1) as [(a2, b2)|] eqn:E2; [|discriminate].
  destruct (dec_f64 b2) as [(a3, b3)|] eqn:E3; [|discriminate]. destruct (dec_f64 b3) as [(a4, b4)|] eqn:E4; [|discriminate]. destruct (dec_f64 b4) as [(a5, b5)|] eqn:E5; [|discriminate].
  destruct (dec_u 8 b5) as [(a6, b6)|] eqn:E6; [|discriminate]. destruct (dec_u 8 b6) as [(a7, b7)|] eqn:E7; [|discriminate].
  destruct (dec_f64 b7) as [(a8, b8)|] eqn:E8; [|discriminate]. destruct (dec_f64 b8) as [(a9, b9)|] eqn:E9; [|discriminate]. destruct (take_bytes 88 b9) as [(x, y)|]; [|discriminate].
  injection E as <- _. cbn [i_root_off i_root_size].
  apply dec_f64_skip in E1, E2, E3, E4, E5. apply dec_u_take in E6 as (E6 & E6'). apply dec_u_take in E7 as (E7 & _).
  rewrite E7, E6, E6', E5, E4, E3, E2, E1, !skipn_add. auto.
Qed.
Lemma opened_fields isfile f r : open_reader isfile f = Ok r -> 0 <= copc_root_offset f < 2 ^ 63 -> 0 <= copc_root_size f < 2 ^ 31 ->
  fresh_reader f (copc_root_offset f) (copc_root_size f) r.
Proof.
  unfold open_reader. intros E RO RS. apply bind_ok in E as (b & _ & E). destruct (_ || _); [discriminate|]. apply bind_ok in E as (i & I & E). apply bind_ok in E as (x & _ & E). apply bind_ok in E as (c & _ & E).
  injection E as <-. unfold fresh_reader. cbn [r_data r_fail r_pages r_seen r_nodes]. repeat (split; [reflexivity|]). split; [|auto].
  unfold read_info in I. destruct (_ =? 0); [discriminate|]. destruct (Z.eqb_spec (fetch_vlr (br_vlrs b) s_copc 1) INFO_VLR_OFFSET) as [->|]; cbn [negb] in I; [|discriminate].
  change (Z.to_nat (INFO_VLR_OFFSET + VLR_HEADER_SIZE)) with 429%nat in I. destruct (dec_info (skipn 429 f)) as [(i', rest)|] eqn:D; [|discriminate]. injection I as <-.
  apply dec_info_root in D as (D1 & D2). rewrite !skipn_add in D1, D2. change (firstn 8 (skipn (429 + 40) f)) with (bytes_at 469 8 f) in D1. change (firstn 8 (skipn (429 + 48) f)) with (bytes_at 477 8 f) in D2.
  fold (num_at 469 8 f) in D1. fold (num_at 477 8 f) in D2. fold (copc_root_offset f) in D1. fold (copc_root_size f) in D2. rewrite D1, D2.
  rewrite !to_s_id by lia. rewrite to_u_id by lia. reflexivity.
Qed.
Lemma opened_used f r : reader_on f r -> 0 <= copc_root_offset f < 2 ^ 63 -> 0 <= copc_root_size f < 2 ^ 31 -> in_use f (copc_root_offset f) (copc_root_size f) r.
Proof. intros (cd & od & isf & r0 & O & A & F) RO RS. exists cd, od, r0. split; [eapply opened_fields; eauto|auto]. Qed.
Lemma pages_root f hs : copc_pages f hs -> Z.of_nat (length f) < 2 ^ 63 -> 0 <= copc_root_offset f < 2 ^ 63 /\ 0 <= copc_root_size f < 2 ^ 31.
Proof.
  intros S L. destruct (sh_root _ _ _ _ S) as (r & I & _ & <- & <-). destruct (sh_page _ _ _ _ S r I) as (A & B & C & D & _). unfold INT32_MAX in C. lia.
Qed.
Lemma reader_used f hs r : copc_pages f hs -> Z.of_nat (length f) < 2 ^ 63 -> reader_on f r -> in_use f (copc_root_offset f) (copc_root_size f) r.
Proof. intros S L R. destruct (pages_root f hs S L). now apply opened_used. Qed.
