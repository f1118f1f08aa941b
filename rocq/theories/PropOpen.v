(* PropOpen.v - property theorems C53: the WKT of an arbitrary file *)
From Verif Require Import Base BaseFacts ModelFloat ModelKey ModelGeom ModelEntry ModelPoint ModelPoints ModelHeader ModelVlr ModelExtents ModelConfig
  ModelStream ModelWriter ModelReader SpecWriter SpecFile SpecReader SpecData SpecOpen ProofOpen3 SampleWriter SampleReader.

(* ---- C53 ---- *)
(* init_reader is the constructor that Reader and LazReader share *)
Theorem C53_evlr : forall f isfile r i, wf_bytes f -> open_reader isfile f = Ok r -> only_wkt_evlr f i -> num_at (evlr_pos f i + 20) 8 f < 2 ^ 31 ->
  c_wkt (r_cfg r) = evlr_data f (evlr_pos f i).
Proof. intros f isf r i W O K L. destruct (opened_base isf f r O) as (b & B & ->). exact (opened_evlr f b W B i K L). Qed.
Print Assumptions C53_evlr.
Theorem C53_laz_evlr : forall f b i, wf_bytes f -> init_reader f = Ok b -> only_wkt_evlr f i -> num_at (evlr_pos f i + 20) 8 f < 2 ^ 31 ->
  z_wkt (br_cfg b) = evlr_data f (evlr_pos f i).
Proof. intros f b i W B K L. exact (opened_evlr f b W B i K L). Qed.
Print Assumptions C53_laz_evlr.
Theorem C53_none : forall f isfile r, wf_bytes f -> open_reader isfile f = Ok r -> no_wkt f -> c_wkt (r_cfg r) = [].
Proof. intros f isf r W O K. destruct (opened_base isf f r O) as (b & B & ->). exact (opened_none f b W B K). Qed.
Print Assumptions C53_none.
(* the WKT of a VLR is read from 6 bytes past its start *)
Theorem C53_vlr_misread : forall f isfile r i, wf_bytes f -> open_reader isfile f = Ok r -> only_wkt_vlr f i ->
  c_wkt (r_cfg r) = bytes_at (vlr_pos f i + 54 + 6) (num_at (vlr_pos f i + 20) 2 f) f.
Proof. intros f isf r i W O K. destruct (opened_base isf f r O) as (b & B & ->). rewrite <- Z.add_assoc. exact (opened_vlr f b W B i K). Qed.
Print Assumptions C53_vlr_misread.

(* deciding the hypotheses for a concrete file *)
Definition wkt_b (f : bytes) (p : Z) : bool := same_bytes (bytes_at (p + 2) 16 f) [76; 65; 83; 70; 95; 80; 114; 111; 106; 101; 99; 116; 105; 111; 110; 0] && (num_at (p + 18) 2 f =? 2112).
Lemma wkt_b_ok f p : wkt_b f p = true <-> wkt_at f p.
Proof.
  unfold wkt_b, wkt_at. rewrite andb_true_iff, Z.eqb_eq. split; intros (A & B); (split; [|exact B]); [now apply same_bytes_eq|]. rewrite A. reflexivity.
Qed.
Definition none_b (f : bytes) (pos : nat -> Z) (n : Z) : bool := forallb (fun i => negb (wkt_b f (pos i))) (seq 0 (Z.to_nat n)).
Lemma none_b_ok f pos n : none_b f pos n = true -> forall j, Z.of_nat j < n -> ~ wkt_at f (pos j).
Proof.
  intros H j L W. unfold none_b in H. rewrite forallb_forall in H. apply wkt_b_ok in W. specialize (H j). rewrite W in H. discriminate H. apply in_seq. lia.
Qed.
Definition only_b (f : bytes) (pos : nat -> Z) (n : Z) (i : nat) : bool := (Z.of_nat i <? n) && wkt_b f (pos i) && forallb (fun j => negb (wkt_b f (pos j)) || (j =? i)%nat) (seq 0 (Z.to_nat n)).
Lemma only_b_ok f pos n i : only_b f pos n i = true -> Z.of_nat i < n /\ wkt_at f (pos i) /\ forall j, Z.of_nat j < n -> wkt_at f (pos j) -> j = i.
Proof.
  unfold only_b. intros H. apply andb_prop in H as (H & H3). apply andb_prop in H as (H1 & H2). split; [now apply Z.ltb_lt|]. split; [now apply wkt_b_ok|].
  intros j L W. apply wkt_b_ok in W. rewrite forallb_forall in H3. specialize (H3 j). rewrite W in H3. cbn [negb orb] in H3. apply Nat.eqb_eq, H3, in_seq. lia.
Qed.
(* a file whose only WKT record is its third VLR: "ABCDEFGH" and spaces *)
Definition wkt_text : bytes := [65; 66; 67; 68; 69; 70; 71; 72] ++ repeat 32 280.
Definition vlr_file : bytes := Eval vm_compute in
  put 933 [76; 65; 83; 70; 95; 80; 114; 111; 106; 101; 99; 116; 105; 111; 110; 0; 64; 8] (put 985 wkt_text (put 1719 [0; 0] empty_file)).
Lemma vlr_file_ok : exists r, wf_bytes vlr_file /\ open_reader true vlr_file = Ok r /\ reader_on vlr_file r /\ only_wkt_vlr vlr_file 2 /\ vlr_data vlr_file (vlr_pos vlr_file 2) = wkt_text.
Proof.
  destruct (opens_ok vlr_file) as (r & O & R); [vm_compute; reflexivity|]. exists r.
  assert (W : forallb (fun x => (0 <=? x) && (x <? 256)) vlr_file = true) by (vm_compute; reflexivity).
  assert (V : only_b vlr_file (vlr_pos vlr_file) (las_vlr_count vlr_file) 2 = true) by (vm_compute; reflexivity).
  assert (E : none_b vlr_file (evlr_pos vlr_file) (las_evlr_count vlr_file) = true) by (vm_compute; reflexivity).
  split; [apply Forall_forall; intros x I; rewrite forallb_forall in W; apply W in I; apply andb_prop in I as (I1 & I2); lia|]. split; [exact O|]. split; [exact R|]. split; [|vm_compute; reflexivity].
  apply only_b_ok in V as (V1 & V2 & V3). split; [exact V1|]. split; [exact V2|]. split; [exact (none_b_ok _ _ _ E)|exact V3].
Qed.
Theorem C53_vlr_refuted : exists f r, wf_bytes f /\ open_reader true f = Ok r /\ reader_on f r /\ only_wkt_vlr f 2 /\ c_wkt (r_cfg r) <> vlr_data f (vlr_pos f 2).
Proof.
  destruct vlr_file_ok as (r & W & O & R & K & D). exists vlr_file, r. split; [exact W|]. split; [exact O|]. split; [exact R|]. split; [exact K|]. rewrite (C53_vlr_misread _ _ _ _ W O K), D. intros Q.
  apply (f_equal (fun l => same_bytes l wkt_text)) in Q. revert Q. vm_compute. discriminate.
Qed.
Print Assumptions C53_vlr_refuted.
Example C53_nonvacuous : (exists r, wf_bytes empty_file /\ open_reader true empty_file = Ok r /\ only_wkt_evlr empty_file 1 /\ num_at (evlr_pos empty_file 1 + 20) 8 empty_file = 2 /\ evlr_data empty_file (evlr_pos empty_file 1) = [65; 66]) /\
  (exists f r, wf_bytes f /\ open_reader true f = Ok r /\ no_wkt f).
Proof.
  assert (WB : forall f, forallb (fun x => (0 <=? x) && (x <? 256)) f = true -> wf_bytes f).
  { intros f W. apply Forall_forall; intros x I; rewrite forallb_forall in W; apply W in I; apply andb_prop in I as (I1 & I2); lia. }
  split.
  - destruct (opens_ok empty_file) as (r & O & R); [vm_compute; reflexivity|]. exists r.
    assert (V : only_b empty_file (evlr_pos empty_file) (las_evlr_count empty_file) 1 = true) by (vm_compute; reflexivity).
    assert (E : none_b empty_file (vlr_pos empty_file) (las_vlr_count empty_file) = true) by (vm_compute; reflexivity).
    split; [apply WB; vm_compute; reflexivity|]. split; [exact O|]. split; [|split; vm_compute; reflexivity].
    apply only_b_ok in V as (V1 & V2 & V3). split; [exact V1|]. split; [exact V2|]. split; [exact (none_b_ok _ _ _ E)|exact V3].
  - set (f := put 1719 [0; 0] empty_file). destruct (opens_ok f) as (r & O & R); [vm_compute; reflexivity|]. exists f, r.
    assert (V : none_b f (evlr_pos f) (las_evlr_count f) = true) by (vm_compute; reflexivity).
    assert (E : none_b f (vlr_pos f) (las_vlr_count f) = true) by (vm_compute; reflexivity).
    split; [apply WB; vm_compute; reflexivity|]. split; [exact O|]. split; [exact (none_b_ok _ _ _ E)|exact (none_b_ok _ _ _ V)].
Qed.
