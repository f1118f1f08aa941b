(* PropLife.v - C85: constructing a writer *)
From Verif Require Import Base BaseFacts ModelFloat ModelKey ModelGeom ModelEntry ModelPoint ModelPoints ModelHeader ModelVlr ModelExtents ModelConfig
  ModelStream ModelWriter ModelReader ModelLazReader ModelLife SpecPoint SpecConfig SpecWriter
  ProofPoint ProofConfig SampleWriter SampleReader PropData PropRound.
Open Scope Z_scope.

(* the point formats of COPC files *)
Definition copc_format (h : las_header) : Prop := 6 <= h_fmt h <= 8.
Lemma copc_format_dec h : copc_format h \/ ~ copc_format h.
Proof. unfold copc_format. lia. Qed.
Lemma base_offset_ok h ebs : copc_format h -> exists z, base_offset h ebs = Ok z.
Proof. intros F. unfold base_offset, h_eb_size, eb_byte_size. rewrite las_base_ok by exact F. cbn [bind]. eexists. reflexivity. Qed.
Lemma base_offset_throw h ebs : ~ copc_format h -> base_offset h ebs = Throw.
Proof. intros F. unfold base_offset, h_eb_size, eb_byte_size. now rewrite base_size_throw by exact F. Qed.
Lemma copc_offset_ok c : copc_format (c_hdr c) -> exists z, copc_offset c = Ok z.
Proof.
  intros F. unfold copc_offset. destruct (base_offset_ok _ (c_ebs c) F) as (z & ->). cbn [bind]. unfold extents_byte_size, new_extents, num_extents, base_dims. unfold copc_format in F. replace ((h_fmt (c_hdr c) <? 6) || (8 <? h_fmt (c_hdr c))) with false by lia.
  destruct (h_fmt (c_hdr c) =? 6) eqn:A; [eexists; reflexivity|]. destruct (h_fmt (c_hdr c) =? 7) eqn:B; [eexists; reflexivity|]. replace (h_fmt (c_hdr c) =? 8) with true by lia. eexists. reflexivity.
Qed.
Lemma unwind_bad {A} cd cap z : ~ copc_format (z_hdr z) -> @unwind A cd cap z = Terminated.
Proof. intros F. unfold unwind, base_close. cbn [ModelWriter.b_open negb]. now rewrite base_offset_throw by exact F. Qed.
Lemma writer_cases cd cap c v : match init_writer c v with
  | Throw => construct_writer cd cap c v = Refused
  | UB => construct_writer cd cap c v = Undefined
  | Ok c0 => copc_format (c_hdr c0) /\ (exists w, construct_writer cd cap c v = Built w /\ open_writer cap c v = Ok w) \/ ~ copc_format (c_hdr c0) /\ construct_writer cd cap c v = Terminated
  end.
Proof.
  unfold construct_writer, open_writer. destruct (init_writer c v) as [c0| |]; [|reflexivity..]. destruct (copc_format_dec (c_hdr c0)) as [F|F].
  - left. split; [exact F|]. destruct (copc_offset_ok _ F) as (z & Z). cbn [bind]. rewrite Z. cbn [bind]. eexists. split; reflexivity.
  - right. split; [exact F|]. unfold copc_offset. rewrite base_offset_throw by exact F. cbn [bind]. now apply unwind_bad.
Qed.

(* ---- C85 ---- *)
(* a Writer is constructed exactly when its configuration can be made and has one of the formats 6 to 8, and then it is
   the Writer of the other properties *)
Theorem C85_built : forall cd cap c v w, construct_writer cd cap c v = Built w <-> open_writer cap c v = Ok w.
Proof.
  intros cd cap c v w. pose proof (writer_cases cd cap c v) as H. unfold open_writer in *. destruct (init_writer c v) as [c0| |]; [|rewrite H; split; discriminate..]. cbn [bind] in *.
  destruct H as [(F & w' & A & B)|(F & A)].
  - rewrite A. split; [intros E; assert (w' = w) as -> by congruence; exact B|intros E; f_equal; rewrite E in B; congruence].
  - rewrite A. unfold copc_offset. rewrite base_offset_throw by exact F. cbn [bind]. split; discriminate.
Qed.
Print Assumptions C85_built.
Theorem C85_when_built : forall cd cap c v, (exists w, construct_writer cd cap c v = Built w) <-> exists c0, init_writer c v = Ok c0 /\ copc_format (c_hdr c0).
Proof.
  intros cd cap c v. pose proof (writer_cases cd cap c v) as H. destruct (init_writer c v) as [c0| |].
  - destruct H as [(F & w & A & _)|(F & A)]; rewrite A; split; intros X.
    + exists c0. auto.
    + now exists w.
    + destruct X as (w & X). discriminate X.
    + destruct X as (c1 & E & X). assert (c1 = c0) as -> by congruence. contradiction.
  - rewrite H. split; intros (x & X); [discriminate X|destruct X; discriminate].
  - rewrite H. split; intros (x & X); [discriminate X|destruct X; discriminate].
Qed.
Print Assumptions C85_when_built.
(* an exception reaches the program exactly when the configuration cannot be made *)
Theorem C85_refused : forall cd cap c v, construct_writer cd cap c v = Refused <-> init_writer c v = Throw.
Proof.
  intros cd cap c v. pose proof (writer_cases cd cap c v) as H. destruct (init_writer c v) as [c0| |]; [|tauto|rewrite H; split; discriminate]. destruct H as [(F & w & -> & _)|(F & ->)]; split; discriminate.
Qed.
Print Assumptions C85_refused.
(* with an optional argument, bad formats are refused *)
Theorem C85_overrides_refused : forall cd cap c v, any_override v = true -> ~ (6 <= ov (ov_fmt v) (h_fmt (c_hdr c)) <= 8) -> (exists x, copy_extents (c_exts c) = Ok x) -> construct_writer cd cap c v = Refused.
Proof. intros cd cap c v A F (x & X). apply C85_refused. unfold init_writer. rewrite A. cbv zeta. rewrite X. cbn [bind]. now rewrite base_size_throw by exact F. Qed.
Print Assumptions C85_overrides_refused.
Lemma override_format c v c0 : any_override v = true -> init_writer c v = Ok c0 -> copc_format (c_hdr c0).
Proof.
  intros A E. unfold init_writer in E. rewrite A in E. cbv zeta in E. apply bind_ok in E as (x & _ & E). apply bind_ok in E as (b & B & E). apply bind_ok in E as (n & _ & E). apply bind_ok in E as (x1 & _ & E). apply bind_ok in E as (x2 & _ & E). apply bind_ok in E as (c' & C & E).
  assert (F : 6 <= ov (ov_fmt v) (h_fmt (c_hdr c)) <= 8). { clear - B. unfold base_size in B. destruct (_ =? 6) eqn:P; [lia|]. destruct (_ =? 7) eqn:Q; [lia|]. destruct (_ =? 8) eqn:R; [lia|discriminate]. }
  unfold copy_config, config_of in *. apply bind_ok in C as (y & _ & C). apply bind_ok in E as (y1 & _ & E). apply bind_ok in E as (y2 & _ & E).
  assert (h_fmt (c_hdr c') = ov (ov_fmt v) (h_fmt (c_hdr c))) as Q1. { pose proof (f_equal (fun o => match o with Ok q => h_fmt (c_hdr q) | _ => h_fmt (c_hdr c') end) C) as G. cbv beta iota in G. rewrite <- G. reflexivity. }
  pose proof (f_equal (fun o => match o with Ok q => h_fmt (c_hdr q) | _ => h_fmt (c_hdr c0) end) E) as G. cbv beta iota in G. unfold copc_format. rewrite <- G. cbn [c_hdr header_with_copc h_fmt]. rewrite Q1. exact F.
Qed.
Theorem C85_overrides_never_terminate : forall cd cap c v, any_override v = true -> construct_writer cd cap c v <> Terminated.
Proof.
  intros cd cap c v A. pose proof (writer_cases cd cap c v) as H. destruct (init_writer c v) as [c0| |] eqn:E; [|rewrite H; discriminate..]. destruct H as [(_ & w & -> & _)|(F & _)]; [discriminate|]. elim F. eapply override_format; eauto.
Qed.
Print Assumptions C85_overrides_never_terminate.
(* The desired property - a Writer that cannot be constructed throws - is false of the code: without optional arguments,
   a configuration with another format ends the program, because the destructor of the half-made writer throws *)
Theorem C85_terminated_refuted : forall cd cap c v, construct_writer cd cap c v = Terminated <-> exists c0, init_writer c v = Ok c0 /\ ~ copc_format (c_hdr c0).
Proof.
  intros cd cap c v. pose proof (writer_cases cd cap c v) as H. destruct (init_writer c v) as [c0| |].
  - destruct H as [(F & w & -> & _)|(F & ->)]; split; intros X; try discriminate.
    + destruct X as (c1 & E & X). assert (c1 = c0) as -> by congruence. contradiction.
    + exists c0. auto.
    + reflexivity.
  - rewrite H. split; [discriminate|intros (x & X & _); discriminate].
  - rewrite H. split; [discriminate|intros (x & X & _); discriminate].
Qed.
Print Assumptions C85_terminated_refuted.
(* the same for a LazWriter, which never throws *)
Theorem C85_laz : forall cd cap z, (forall w, construct_laz_writer cd cap z = Built w <-> open_laz_writer cap z = Ok w) /\ ((exists w, construct_laz_writer cd cap z = Built w) <-> copc_format (z_hdr z)) /\
  construct_laz_writer cd cap z <> Refused /\ construct_laz_writer cd cap z <> Undefined.
Proof.
  intros cd cap z. unfold construct_laz_writer, open_laz_writer. destruct (copc_format_dec (z_hdr z)) as [F|F].
  - destruct (base_offset_ok _ (z_ebs z) F) as (p & ->). cbn [bind]. split; [|split; [split; [now intros _|intros _; eexists; reflexivity]|split; discriminate]].
    intros w. split; intros E; congruence.
  - rewrite base_offset_throw by exact F. cbn [bind]. rewrite unwind_bad by exact F. split; [split; discriminate|]. split; [split; [intros (w & X); discriminate X|contradiction]|split; discriminate].
Qed.
Print Assumptions C85_laz.
Theorem C85_laz_terminated_refuted : forall cd cap z, ~ copc_format (z_hdr z) -> construct_laz_writer cd cap z = Terminated.
Proof. intros cd cap z F. unfold construct_laz_writer. rewrite base_offset_throw by exact F. now apply unwind_bad. Qed.
Print Assumptions C85_laz_terminated_refuted.
(* a configuration that a reader reports never ends the program *)
Lemma opened_base f b : init_reader f = Ok b -> copc_format (z_hdr (br_cfg b)).
Proof.
  intros E. unfold init_reader in E. apply bind_ok in E as (l & _ & E). apply bind_ok in E as (h & H & E). apply bind_ok in E as (m & _ & E). apply bind_ok in E as (wkt & _ & E). apply bind_ok in E as (ebs & _ & E).
  pose proof (f_equal (fun o => match o with Ok q => z_hdr (br_cfg q) | _ => h end) E) as G. cbv beta iota in G. rewrite <- G. cbn [br_cfg z_hdr]. clear E G b.
  unfold from_lazperf in H. apply bind_ok in H as (u1 & _ & H). apply bind_ok in H as (g1 & _ & H). apply bind_ok in H as (u2 & _ & H). apply bind_ok in H as (g2 & _ & H). apply bind_ok in H as (g3 & _ & H). apply bind_ok in H as (u3 & _ & H). apply bind_ok in H as (u4 & R & H).
  pose proof (f_equal (fun o => match o with Ok q => h_fmt q | _ => h_fmt h end) H) as G. cbv beta iota in G. cbn [h_fmt] in G. unfold copc_format. rewrite <- G. unfold require in R. destruct ((6 <=? l_fmt l) && (l_fmt l <=? 8)) eqn:Q; [lia|discriminate].
Qed.
Lemma opened_format isf f r : open_reader isf f = Ok r -> copc_format (c_hdr (r_cfg r)).
Proof.
  unfold open_reader. intros H. apply bind_ok in H as (b & B & H). cbv zeta in H. apply opened_base in B. destruct (_ || _); [discriminate|]. apply bind_ok in H as (i & _ & H). apply bind_ok in H as (x & _ & H). apply bind_ok in H as (c & C & H).
  unfold config_of in C. apply bind_ok in C as (y & _ & C). pose proof (f_equal (fun o => match o with Ok q => r_cfg q | _ => r_cfg r end) H) as E. cbv beta iota in E. cbn [r_cfg] in E. rewrite <- E.
  pose proof (f_equal (fun o => match o with Ok q => c_hdr q | _ => c_hdr c end) C) as E'. cbv beta iota in E'. cbn [c_hdr] in E'. rewrite <- E'. exact B.
Qed.
Theorem C85_from_reader : forall cd cap isf f r v, open_reader isf f = Ok r -> construct_writer cd cap (r_cfg r) v <> Terminated.
Proof.
  intros cd cap isf f r v O T. destruct (any_override v) eqn:A; [now apply (C85_overrides_never_terminate cd cap (r_cfg r) v A)|]. apply C85_terminated_refuted in T as (c0 & E & F). apply F. apply opened_format in O. unfold init_writer in E. rewrite A in E.
  unfold copy_config, config_of in E. apply bind_ok in E as (y1 & _ & E). apply bind_ok in E as (y2 & _ & E). pose proof (f_equal (fun o => match o with Ok q => c_hdr q | _ => c_hdr c0 end) E) as E'. cbv beta iota in E'. cbn [c_hdr] in E'. rewrite <- E'. exact O.
Qed.
Print Assumptions C85_from_reader.
Theorem C85_laz_from_reader : forall cd cap f r, open_laz_reader f = Ok r -> exists w, construct_laz_writer cd cap (laz_writer_config (lr_cfg r)) = Built w.
Proof.
  intros cd cap f r O. apply (proj1 (proj2 (C85_laz cd cap (laz_writer_config (lr_cfg r))))). unfold open_laz_reader in O. apply bind_ok in O as (b & B & O). apply opened_base in B.
  pose proof (f_equal (fun o => match o with Ok q => lr_cfg q | _ => lr_cfg r end) O) as E. cbv beta iota in E. cbn [lr_cfg] in E. rewrite <- E. exact B.
Qed.
Print Assumptions C85_laz_from_reader.
(* the format constructors of the configurations: a configuration made from a format always gives a Writer *)
Theorem C85_from_format : forall cd cap fmt s o wkt ebs ext c, new_config fmt s o wkt ebs ext = Ok c -> construct_writer cd cap c no_overrides <> Terminated.
Proof.
  intros cd cap fmt s o wkt ebs ext c N T. apply C85_terminated_refuted in T as (c0 & E & F). apply F. clear F. assert (C : copc_format (c_hdr c)).
  { unfold new_config in N. apply bind_ok in N as (z & Z & N). unfold new_laz_config in Z. destruct ((fmt <? 6) || (8 <? fmt)) eqn:Q; [discriminate|]. apply bind_ok in Z as (b & _ & Z). apply bind_ok in Z as (n & _ & Z). apply bind_ok in N as (x & _ & N).
    pose proof (f_equal (fun o => match o with Ok q => h_fmt (z_hdr q) | _ => h_fmt (z_hdr z) end) Z) as G. cbv beta iota in G.
    pose proof (f_equal (fun o => match o with Ok q => h_fmt (c_hdr q) | _ => h_fmt (c_hdr c) end) N) as G2. cbv beta iota in G2. unfold copc_format. rewrite <- G2. cbn [c_hdr]. rewrite <- G. cbn. lia. }
  unfold init_writer in E. cbn [any_override no_overrides is_some ov_fmt ov_scale ov_offset ov_wkt ov_ebs ov_ext orb] in E.
  unfold copy_config, config_of in E. apply bind_ok in E as (y1 & _ & E). apply bind_ok in E as (y2 & _ & E). pose proof (f_equal (fun o => match o with Ok q => c_hdr q | _ => c_hdr c0 end) E) as E'. cbv beta iota in E'. cbn [c_hdr] in E'. rewrite <- E'. exact C.
Qed.
Print Assumptions C85_from_format.
(* FileWriter and LazFileWriter: a path that cannot be opened is refused and left alone *)
Theorem C85_path_refused : forall cd old c v z, construct_file_writer cd false old c v = (old, Refused) /\ construct_laz_file_writer cd false old z = (old, Refused).
Proof. intros. split; reflexivity. Qed.
Print Assumptions C85_path_refused.
(* The desired property - a FileWriter that is not constructed leaves the file that was there - is false of the code: the
   path is emptied first *)
Theorem C85_old_file_lost_refuted : forall cd old c v, (forall w, construct_writer cd None c v <> Built w) -> fst (construct_file_writer cd true old c v) = Some [] /\ forall w, snd (construct_file_writer cd true old c v) <> Built w.
Proof. intros cd old c v N. split; [reflexivity|exact N]. Qed.
Print Assumptions C85_old_file_lost_refuted.

Definition odd_config : config := mkCfg (new_header 3 34 unit_vec zero_vec true) (c_wkt a_config) (c_ebs a_config) (c_info a_config) (c_exts a_config).
Definition fmt8 : overrides := mkOv (Some 8) None None None None None.
Definition fmt9 : overrides := mkOv (Some 9) None None None None None.
Example C85_nonvacuous : construct_writer verbatim None odd_config no_overrides = Terminated /\ construct_writer verbatim None odd_config fmt9 = Refused /\ (exists w, construct_writer verbatim None odd_config fmt8 = Built w) /\
  (exists w, construct_writer verbatim None a_config no_overrides = Built w) /\ construct_file_writer verbatim true (Some good_file) odd_config fmt9 = (Some [], Refused) /\
  construct_laz_writer verbatim None (mkLaz (c_hdr odd_config) [] []) = Terminated /\ (exists r, open_reader true good_file = Ok r) /\ exists r, open_laz_reader good_file = Ok r.
Proof.
  assert (E : construct_writer verbatim None odd_config fmt9 = Refused) by (vm_compute; reflexivity).
  split; [vm_compute; reflexivity|]. split; [exact E|]. split; [|split; [|split; [|split; [vm_compute; reflexivity|split]]]].
  - assert (Q : match construct_writer verbatim None odd_config fmt8 with Built _ => true | _ => false end = true) by (vm_compute; reflexivity). destruct (construct_writer verbatim None odd_config fmt8) as [w| | |]; [now exists w|discriminate..].
  - assert (Q : match construct_writer verbatim None a_config no_overrides with Built _ => true | _ => false end = true) by (vm_compute; reflexivity). destruct (construct_writer verbatim None a_config no_overrides) as [w| | |]; [now exists w|discriminate..].
  - unfold construct_file_writer, on_path. now rewrite E.
  - destruct (opens_ok good_file ltac:(vm_compute; reflexivity)) as (r & O & _). now exists r.
  - assert (Q : match open_laz_reader good_file with Ok _ => true | _ => false end = true) by (vm_compute; reflexivity). destruct (open_laz_reader good_file) as [r| |]; [now exists r|discriminate..].
Qed.
