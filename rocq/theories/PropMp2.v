(* PropMp2.v - C56: transforming a file with a process pool *)
From Coq Require Import Permutation.
From Verif Require Import Base BaseFacts ModelFloat ModelKey ModelGeom ModelEntry ModelPoint ModelPoints ModelHeader ModelVlr ModelExtents ModelConfig
  ModelStream ModelWriter ModelReader ModelPickle ModelMp SpecKey SpecPoint SpecPoints SpecConfig SpecWriter SpecHier SpecFile SpecReader SpecData SpecRound SpecMp
  ProofFloat ProofGeom ProofKey ProofPickle ProofPoint ProofPoints ProofConfig ProofStream ProofWriter ProofWriter2 ProofWriter4 ProofClose2 ProofSession ProofResults ProofReject ProofData ProofData2 ProofData3 ProofReader4 ProofReader6 ProofOpen ProofRound ProofMp ProofMp2 ProofMp3 ProofMp4 ProofMp5
  SampleWriter SampleReader PropWriter PropReader PropData PropRound PropMp.
Open Scope Z_scope.

(* what the theorems below rest on *)
Lemma program_node cd f hs h P p od nodes res r l tf c0 T upd chunk c v w n :
  transforms cd f hs h P p od nodes res r l tf (c_hdr c0) T -> 0 < chunk -> transform_program cd tf upd od nodes res chunk r p c v c0 w -> In n l -> nonempty (T n) ->
  exists ops lg nd data, written cd c0 ops lg w /\ (length ops <= Datatypes.S (length l))%nat /\ view_of lg (n_key n) = Some (nd, n_page n) /\
    In (WAddCompressed (n_key n) (cd_comp cd (h_fmt (c_hdr c0)) (h_reclen (c_hdr c0) - las_base (h_fmt (c_hdr c0))) data) (Z.of_nat (length (c_pts (snd (T n))))) (n_page n), Ok (Some nd)) lg /\
    points_pack (fst (T n)) (snd (T n)) (h_scale (c_hdr c0)) (h_offset (c_hdr c0)) = Ok data /\
    n_key nd = n_key n /\ e_count (n_entry nd) = Z.of_nat (length (c_pts (snd (T n)))).
Proof.
  intros TR N TP I NE. destruct (transform_written _ _ _ _ _ _ _ _ _ _ _ _ _ _ _ _ _ _ _ TR N TP) as (ops & lg & adds & ds & l' & W & LN & PL & FB & AO & MF & IN & VW & _).
  assert (UN : forall a b, In a l -> In b l -> n_key a = n_key b -> a = b). { destruct TR as (SR & _ & _ & FS & _). rewrite Forall_forall in FS. intros a b A B K. eapply stored_unique; [exact (proj1 SR)|auto..]. }
  destruct (view_node _ _ _ _ _ _ _ _ PL FB AO MF UN n I NE) as (nd & data & V & J & PK). exists ops, lg, nd, data. split; [exact W|]. split; [exact LN|]. split; [rewrite VW; exact V|]. split; [now apply IN|]. split; [exact PK|].
  destruct W as ((wod & cc & vv & CS) & _). destruct (chunk_kept _ _ _ _ _ _ _ _ _ _ CS (IN _ J)) as (x & CO & AK & _). cbn [chunk_of add_keys] in CO, AK. split; [unfold n_key at 1; congruence|congruence].
Qed.
Lemma program_absent cd f hs h P p od nodes res r l tf c0 T upd chunk c v w k :
  transforms cd f hs h P p od nodes res r l tf (c_hdr c0) T -> 0 < chunk -> transform_program cd tf upd od nodes res chunk r p c v c0 w -> (forall n, In n l -> n_key n = k -> ~ nonempty (T n)) ->
  exists ops lg, written cd c0 ops lg w /\ (length ops <= Datatypes.S (length l))%nat /\ view_of lg k = None.
Proof.
  intros TR N TP A. destruct (transform_written _ _ _ _ _ _ _ _ _ _ _ _ _ _ _ _ _ _ _ TR N TP) as (ops & lg & adds & ds & l' & W & LN & PL & FB & AO & MF & IN & VW & _).
  exists ops, lg. split; [exact W|]. split; [exact LN|]. rewrite VW. eapply view_none; eauto.
Qed.
Lemma storable_as c c' : storable c -> c_wkt c' = c_wkt c -> c_ebs c' = c_ebs c -> c_exts c' = c_exts c -> h_guid (c_hdr c') = h_guid (c_hdr c) -> h_sys (c_hdr c') = h_sys (c_hdr c) -> h_gen (c_hdr c') = h_gen (c_hdr c) -> storable c'.
Proof. intros S A B C D E F. unfold storable. rewrite A, B, C, D, E, F. exact S. Qed.
Lemma program_storable cd f hs h P p od nodes res r l tf c0 T upd chunk c v w :
  transforms cd f hs h P p od nodes res r l tf (c_hdr c0) T -> 0 < chunk -> transform_program cd tf upd od nodes res chunk r p c v c0 w -> storable c0 -> storable (w_cfg w).
Proof.
  intros TR N TP S. destruct (transform_written _ _ _ _ _ _ _ _ _ _ _ _ _ _ _ _ _ _ _ TR N TP) as (ops & lg & adds & ds & l' & _ & _ & _ & _ & _ & _ & _ & _ & HW & HE & HX & HH).
  apply (storable_as c0); auto; (destruct upd; [destruct HH as (mn & mx & _ & ->)|rewrite HH]; reflexivity).
Qed.

Lemma absent_compressed cd c0 ops l w r k : written cd c0 ops l w -> reader_on (file w) r -> view_of l k = None -> exists r', returns (fun m => get_compressed m k r) r' (Ok []).
Proof.
  intros W R V. destruct (written_reader _ _ _ _ _ _ W R) as (hs & S & L & ST & _ & G). assert (NS : forall n, ~ stored_node hs k n) by (intros n Q; apply ST in Q as (m & p & Q & _); congruence).
  destruct (data_by_key cd _ _ _ hs S L k r G) as (_ & _ & _ & A). destruct (A NS) as ((r1 & E1 & _) & (r2 & E2 & _) & _). eauto.
Qed.

(* ---- C56 ---- *)
(* every node whose transformed points are not none is found, under its key, in its page, with its count *)
Theorem C56_find : forall cd f hs h P p od nodes res r l tf c0 T upd chunk c v w n r',
  transforms cd f hs h P p od nodes res r l tf (c_hdr c0) T -> 0 < chunk -> transform_program cd tf upd od nodes res chunk r p c v c0 w -> In n l -> nonempty (T n) -> reader_on (file w) r' ->
  exists r'' m, returns (fun fuel => find_node fuel (n_key n) r') r'' (Ok m) /\ n_key m = n_key n /\ n_page m = n_page n /\ e_count (n_entry m) = Z.of_nat (length (c_pts (snd (T n)))).
Proof.
  intros cd f hs h P p od nodes res r l tf c0 T upd chunk c v w n r' TR N TP I NE R. destruct (program_node _ _ _ _ _ _ _ _ _ _ _ _ _ _ _ _ _ _ _ _ TR N TP I NE) as (ops & lg & nd & data & W & LN & V & J & PK & K & C).
  destruct (C32_find_added _ _ _ _ _ _ _ _ _ W R V) as (r'' & E). exists r'', (mkNode (n_entry nd) (n_page n)). auto.
Qed.
Print Assumptions C56_find.
(* and nothing else is *)
Theorem C56_absent : forall cd f hs h P p od nodes res r l tf c0 T upd chunk c v w k r',
  transforms cd f hs h P p od nodes res r l tf (c_hdr c0) T -> 0 < chunk -> transform_program cd tf upd od nodes res chunk r p c v c0 w -> (forall n, In n l -> n_key n = k -> ~ nonempty (T n)) -> reader_on (file w) r' ->
  exists r'', returns (fun fuel => find_node fuel k r') r'' (Ok invalid_node).
Proof.
  intros cd f hs h P p od nodes res r l tf c0 T upd chunk c v w k r' TR N TP A R. destruct (program_absent _ _ _ _ _ _ _ _ _ _ _ _ _ _ _ _ _ _ _ _ TR N TP A) as (ops & lg & W & _ & V). eapply C32_find_absent; eauto.
Qed.
Print Assumptions C56_absent.
(* the keys GetAllNodes lists are those of the nodes with transformed points, once each *)
Theorem C56_all_nodes : forall cd f hs h P p od nodes res r l tf c0 T upd chunk c v w r' od',
  transforms cd f hs h P p od nodes res r l tf (c_hdr c0) T -> 0 < chunk -> transform_program cd tf upd od nodes res chunk r p c v c0 w -> reader_on (file w) r' -> visits_all od' ->
  exists r'' ns, returns (fun fuel => get_all_nodes fuel od' r') r'' (Ok ns) /\ NoDup (map n_key ns) /\ forall k, In k (map n_key ns) <-> exists n, In n l /\ n_key n = k /\ nonempty (T n).
Proof.
  intros cd f hs h P p od nodes res r l tf c0 T upd chunk c v w r' od' TR N TP R VA. destruct (transform_written _ _ _ _ _ _ _ _ _ _ _ _ _ _ _ _ _ _ _ TR N TP) as (ops & lg & adds & ds & l' & W & LN & PL & FB & AO & MF & IN & VW & _).
  destruct (C33_all_nodes _ _ _ _ _ _ _ W R VA) as (r'' & ns & E & (ND & X)). exists r'', ns. split; [exact E|]. split; [exact ND|].
  assert (UN : forall a b, In a l -> In b l -> n_key a = n_key b -> a = b). { destruct TR as (SR & _ & _ & FS & _). rewrite Forall_forall in FS. intros a b A B K. eapply stored_unique; [exact (proj1 SR)|auto..]. }
  intros k. split.
  - intros I. apply in_map_iff in I as (m & <- & I). apply X in I as (nd & q & V & _). rewrite VW in V. destruct (view_adds adds (fun _ => None) (n_key m) AO) as [(Q & _)|(y & a & q' & nd' & J & _)]; [unfold view_of in V; congruence|].
    destruct (add_of _ _ _ _ _ _ _ _ PL FB MF _ _ _ _ _ J) as (n & A & B & C & _). eauto.
  - intros (n & I & K & NE). destruct (view_node _ _ _ _ _ _ _ _ PL FB AO MF UN n I NE) as (nd & data & V & J & PK). rewrite K in V, J.
    destruct W as ((wod & cc & vv & CS) & _). destruct (chunk_kept _ _ _ _ _ _ _ _ _ _ CS (IN _ J)) as (x & CO & AK & _). cbn [add_keys] in AK. apply in_map_iff. exists (mkNode (n_entry nd) (n_page n)). assert (NK : n_key (mkNode (n_entry nd) (n_page n)) = k) by (unfold n_key; cbn [n_entry]; congruence).
    split; [exact NK|]. apply X. exists nd, (n_page n). rewrite NK, VW. auto.
Qed.
Print Assumptions C56_all_nodes.
(* the chunk of a node is what its transformed points compress to *)
Theorem C56_chunk : forall cd f hs h P p od nodes res r l tf c0 T upd chunk c v w n r',
  transforms cd f hs h P p od nodes res r l tf (c_hdr c0) T -> 0 < chunk -> transform_program cd tf upd od nodes res chunk r p c v c0 w -> In n l -> nonempty (T n) -> reader_on (file w) r' ->
  exists r'' data, points_pack (fst (T n)) (snd (T n)) (h_scale (c_hdr c0)) (h_offset (c_hdr c0)) = Ok data /\
    returns (fun fuel => get_compressed fuel (n_key n) r') r'' (Ok (cd_comp cd (h_fmt (c_hdr c0)) (h_reclen (c_hdr c0) - las_base (h_fmt (c_hdr c0))) data)).
Proof.
  intros cd f hs h P p od nodes res r l tf c0 T upd chunk c v w n r' TR N TP I NE R. destruct (program_node _ _ _ _ _ _ _ _ _ _ _ _ _ _ _ _ _ _ _ _ TR N TP I NE) as (ops & lg & nd & data & W & LN & V & J & PK & K & C).
  destruct (C34_compressed _ _ _ _ _ _ _ _ _ _ W R V J) as (r'' & x & cnt & CO & E). cbn [chunk_of] in CO. exists r'', data. split; [exact PK|]. assert (x = cd_comp cd (h_fmt (c_hdr c0)) (h_reclen (c_hdr c0) - las_base (h_fmt (c_hdr c0))) data) as <- by congruence. exact E.
Qed.
Print Assumptions C56_chunk.
(* and the points come back *)
Theorem C56_points : forall cd f hs h P p od nodes res r l tf c0 T upd chunk c v w n r' hp,
  transforms cd f hs h P p od nodes res r l tf (c_hdr c0) T -> 0 < chunk -> transform_program cd tf upd od nodes res chunk r p c v c0 w -> In n l -> nonempty (T n) -> reader_on (file w) r' ->
  lossless cd -> fits_header (c_hdr c0) (T n) -> storable c0 -> h_reclen (c_hdr c0) <= 255 -> Z.of_nat (length l) < 2 ^ 32 - 3 ->
  exists r'' x ps qs, points_in (T n) ps /\ returns (fun fuel => get_points cd fuel hp (n_key n) r') r'' (Ok x) /\ has_points (c_hdr c0) x qs /\
    Forall2 (comes_back (h_scale (c_hdr c0)) (h_offset (c_hdr c0))) ps qs.
Proof.
  intros cd f hs h P p od nodes res r l tf c0 T upd chunk c v w n r' hp TR N TP I NE R LS (F1 & F2 & F3 & F4) SB R255 LL. destruct (program_node _ _ _ _ _ _ _ _ _ _ _ _ _ _ _ _ _ _ _ _ TR N TP I NE) as (ops & lg & nd & data & W & LN & V & J & PK & K & C).
  pose proof W as ((wod & cc & vv & CS) & _). destruct (ready_base _ _ _ _ _ _ _ _ CS) as (F6 & RB).
  destruct (points_come_back (c_hdr c0) (fst (T n)) (snd (T n)) data F3 F4 F1 F2 (proj1 RB) PK) as (WB & ps & qs & E & D & FB).
  assert (DL : Z.of_nat (length data) = Z.of_nat (length (c_pts (snd (T n)))) * h_reclen (c_hdr c0)) by (rewrite (proj1 D), <- (points_in_length _ _ E); f_equal; f_equal; clear - FB; induction FB; cbn [length]; congruence).
  destruct (C34_points_of_records cd c0 ops lg w r' (n_key n) nd (n_page n) _ data hp LS W (program_storable _ _ _ _ _ _ _ _ _ _ _ _ _ _ _ _ _ _ _ TR N TP SB) ltac:(lia) R V J (conj eq_refl DL) WB R255) as (r'' & x & qs' & RT & HP & D').
  assert (qs' = qs) as ->. { eapply decodes_unique; [|exact D'|exact D]. pose proof (ProofPoint.las_base_range (h_fmt (c_hdr c0))). lia. }
  exists r'', x, ps, qs. auto.
Qed.
Print Assumptions C56_points.
(* the file has the settings of the Writer; the bounds are left alone unless update_minmax is given *)
Lemma program_header cd f hs h P p od nodes res r l tf c0 T upd chunk c v w r' :
  transforms cd f hs h P p od nodes res r l tf (c_hdr c0) T -> 0 < chunk -> transform_program cd tf upd od nodes res chunk r p c v c0 w -> storable c0 -> Z.of_nat (length l) < 2 ^ 32 - 3 -> reader_on (file w) r' ->
  exists l' ds, Permutation l l' /\ Forall2 (fun n d => brings cd upd (c_hdr c0) (T n) n d) l' ds /\
  c_wkt (r_cfg r') = c_wkt c0 /\ c_ebs (r_cfg r') = c_ebs c0 /\ same_extents (c_exts c0) (c_exts (r_cfg r')) /\ same_but_bounds (c_hdr c0) (c_hdr (r_cfg r')) /\ describes (file w) (c_hdr (r_cfg r')) /\
  if upd then global_bounds (bounds_of ds) (h_min (c_hdr (r_cfg r'))) (h_max (c_hdr (r_cfg r'))) else h_min (c_hdr (r_cfg r')) = h_min (c_hdr c0) /\ h_max (c_hdr (r_cfg r')) = h_max (c_hdr c0).
Proof.
  intros TR N TP SB LL R. pose proof (program_storable _ _ _ _ _ _ _ _ _ _ _ _ _ _ _ _ _ _ _ TR N TP SB) as SW.
  destruct (transform_written _ _ _ _ _ _ _ _ _ _ _ _ _ _ _ _ _ _ _ TR N TP) as (ops & lg & adds & ds & l' & W & LN & PL & FB & _ & _ & _ & _ & HW & HE & HX & HH). exists l', ds. split; [exact PL|]. split; [exact FB|].
  destruct (C35_reader_in_use _ _ _ _ _ _ W SW ltac:(lia) R) as ((A1 & A2 & _ & A3 & A4) & DS). rewrite A1, A2, HW, HE. split; [reflexivity|]. split; [reflexivity|]. split; [rewrite <- HX; exact A3|].
  destruct A4 as (B1 & B2 & B3 & B4 & B5 & B6 & B7 & B8 & B9 & B10 & B11 & B12 & B13 & B14 & B15). unfold same_but_bounds. rewrite B1, B2, B3, B4, B5, B6, B7, B8, B9, B10, B11, B12, B13, B14, B15.
  destruct upd; [destruct HH as (mn & mx & G & ->)|rewrite HH]; cbn [with_bounds h_src h_enc h_day h_year h_max h_min h_pbr h_scale h_offset h_fmt h_reclen h_guid h_sys h_gen h_copc]; auto 20.
Qed.
Theorem C56_settings : forall cd f hs h P p od nodes res r l tf c0 T upd chunk c v w r',
  transforms cd f hs h P p od nodes res r l tf (c_hdr c0) T -> 0 < chunk -> transform_program cd tf upd od nodes res chunk r p c v c0 w -> storable c0 -> Z.of_nat (length l) < 2 ^ 32 - 3 -> reader_on (file w) r' ->
  c_wkt (r_cfg r') = c_wkt c0 /\ c_ebs (r_cfg r') = c_ebs c0 /\ same_extents (c_exts c0) (c_exts (r_cfg r')) /\ same_but_bounds (c_hdr c0) (c_hdr (r_cfg r')) /\
  (upd = false -> h_min (c_hdr (r_cfg r')) = h_min (c_hdr c0) /\ h_max (c_hdr (r_cfg r')) = h_max (c_hdr c0)).
Proof.
  intros cd f hs h P p od nodes res r l tf c0 T upd chunk c v w r' TR N TP SB LL R. destruct (program_header _ _ _ _ _ _ _ _ _ _ _ _ _ _ _ _ _ _ _ _ TR N TP SB LL R) as (l' & ds & _ & _ & A & B & C & D & _ & E).
  split; [exact A|]. split; [exact B|]. split; [exact C|]. split; [exact D|]. intros ->. exact E.
Qed.
Print Assumptions C56_settings.
Lemma Permutation_concat {A} (a b : list (list A)) : Permutation a b -> Permutation (concat a) (concat b).
Proof. intros P. induction P as [|x l m P IH|x y l|l m k P1 I1 P2 I2]; cbn [concat]; [constructor|now apply Permutation_app_head|rewrite !app_assoc; apply Permutation_app_tail, Permutation_app_comm|eapply Permutation_trans; eauto]. Qed.
(* with update_minmax, the bounds are the bounding box of the transformed points *)
Theorem C56_bounds : forall cd f hs h P p od nodes res r l tf c0 T chunk c v w r' ps,
  transforms cd f hs h P p od nodes res r l tf (c_hdr c0) T -> 0 < chunk -> transform_program cd tf true od nodes res chunk r p c v c0 w -> storable c0 -> Z.of_nat (length l) < 2 ^ 32 - 3 -> reader_on (file w) r' ->
  all_points l T ps -> no_nan ps ->
  (ps <> [] -> bounding ps (h_min (c_hdr (r_cfg r'))) (h_max (c_hdr (r_cfg r')))) /\
  (ps = [] -> h_min (c_hdr (r_cfg r')) = zero_vec /\ h_max (c_hdr (r_cfg r')) = zero_vec).
Proof.
  intros cd f hs h P p od nodes res r l tf c0 T chunk c v w r' ps TR N TP SB LL R (pss & F & ->) NN. destruct (program_header _ _ _ _ _ _ _ _ _ _ _ _ _ _ _ _ _ _ _ _ TR N TP SB LL R) as (l' & ds & PL & FB & _ & _ & _ & _ & _ & G).
  rewrite (bounds_list _ _ _ _ _ _ FB) in G. destruct (Permutation_Forall2 PL F) as (pss' & PP & F'). pose proof (Permutation_concat _ _ PP) as PC. split.
  - intros NE. apply (bounding_same (concat pss')); [now apply Permutation_sym|]. apply (global_bounding T l'); auto.
    + eapply Permutation_Forall; [exact PC|exact NN].
    + intros E. rewrite E in PC. apply Permutation_sym, Permutation_nil in PC. contradiction.
  - intros E. rewrite E in PC. apply Permutation_nil in PC. rewrite (no_points_bounds T l' pss' F' PC) in G. exact G.
Qed.
Print Assumptions C56_bounds.
(* whatever the schedules and chunk sizes, two runs write the same nodes, chunks and bounds *)
Theorem C56_schedule_independent : forall cd f hs h P tf c0 T upd p od nodes res r l chunk c v w p' od' nodes' res' r0 l' chunk' c' v' w' r1 r2,
  transforms cd f hs h P p od nodes res r l tf (c_hdr c0) T -> 0 < chunk -> transform_program cd tf upd od nodes res chunk r p c v c0 w ->
  transforms cd f hs h P p' od' nodes' res' r0 l' tf (c_hdr c0) T -> 0 < chunk' -> transform_program cd tf upd od' nodes' res' chunk' r0 p' c' v' c0 w' ->
  Permutation l l' -> reader_on (file w) r1 -> reader_on (file w') r2 ->
  (forall k, exists r1' r2' m1 m2, returns (fun fuel => find_node fuel k r1) r1' (Ok m1) /\ returns (fun fuel => find_node fuel k r2) r2' (Ok m2) /\ n_key m1 = n_key m2 /\ n_page m1 = n_page m2 /\ e_count (n_entry m1) = e_count (n_entry m2)) /\
  (forall k, exists r1' r2' data, returns (fun fuel => get_compressed fuel k r1) r1' (Ok data) /\ returns (fun fuel => get_compressed fuel k r2) r2' (Ok data)) /\
  (storable c0 -> Z.of_nat (length l) < 2 ^ 32 - 3 -> upd = true -> same_vec (h_min (c_hdr (r_cfg r1))) (h_min (c_hdr (r_cfg r2))) /\ same_vec (h_max (c_hdr (r_cfg r1))) (h_max (c_hdr (r_cfg r2)))).
Proof.
  intros cd f hs h P tf c0 T upd p od nodes res r l chunk c v w p' od' nodes' res' r0 l' chunk' c' v' w' r1 r2 TR N TP TR' N' TP' PL R1 R2.
  assert (DEC : forall k, (exists n, In n l /\ n_key n = k /\ nonempty (T n)) \/ (forall n, In n l -> n_key n = k -> ~ nonempty (T n))).
  { intros k. clear. induction l as [|n l IH]; [right; intros n []|]. destruct IH as [(m & A & B)|IH]; [left; exists m; split; [now right|exact B]|].
    destruct (key_eqb (n_key n) k) eqn:K; [apply key_eqb_eq in K|]; [destruct (c_pts (snd (T n))) as [|a b] eqn:E; [right|left; exists n; split; [now left|split; [exact K|unfold nonempty; rewrite E; discriminate]]]|right].
    - intros m [<-|I]; [intros _ X; exact (X E)|now apply IH].
    - intros m [<-|I]; [intros X; rewrite X, key_eqb_refl in K; discriminate|now apply IH]. }
  assert (AB : forall k, (forall n, In n l -> n_key n = k -> ~ nonempty (T n)) -> forall n, In n l' -> n_key n = k -> ~ nonempty (T n)) by (intros k A n I; apply A; eapply Permutation_in; [apply Permutation_sym; exact PL|exact I]).
  split; [|split].
  - intros k. destruct (DEC k) as [(n & I & <- & NE)|A].
    + destruct (C56_find _ _ _ _ _ _ _ _ _ _ _ _ _ _ _ _ _ _ _ _ _ TR N TP I NE R1) as (r1' & m1 & E1 & A1 & B1 & C1). destruct (C56_find _ _ _ _ _ _ _ _ _ _ _ _ _ _ _ _ _ _ _ _ _ TR' N' TP' (Permutation_in _ PL I) NE R2) as (r2' & m2 & E2 & A2 & B2 & C2).
      exists r1', r2', m1, m2. split; [exact E1|]. split; [exact E2|]. split; [congruence|]. split; congruence.
    + destruct (C56_absent _ _ _ _ _ _ _ _ _ _ _ _ _ _ _ _ _ _ _ _ _ TR N TP A R1) as (r1' & E1). destruct (C56_absent _ _ _ _ _ _ _ _ _ _ _ _ _ _ _ _ _ _ _ _ _ TR' N' TP' (AB k A) R2) as (r2' & E2).
      exists r1', r2', invalid_node, invalid_node. auto.
  - intros k. destruct (DEC k) as [(n & I & <- & NE)|A].
    + destruct (C56_chunk _ _ _ _ _ _ _ _ _ _ _ _ _ _ _ _ _ _ _ _ _ TR N TP I NE R1) as (r1' & d1 & P1 & E1). destruct (C56_chunk _ _ _ _ _ _ _ _ _ _ _ _ _ _ _ _ _ _ _ _ _ TR' N' TP' (Permutation_in _ PL I) NE R2) as (r2' & d2 & P2 & E2).
      assert (d2 = d1) as -> by congruence. eauto.
    + destruct (program_absent _ _ _ _ _ _ _ _ _ _ _ _ _ _ _ _ _ _ _ _ TR N TP A) as (ops & lg & W & _ & V). destruct (program_absent _ _ _ _ _ _ _ _ _ _ _ _ _ _ _ _ _ _ _ _ TR' N' TP' (AB k A)) as (ops' & lg' & W' & _ & V').
      destruct (absent_compressed _ _ _ _ _ _ _ W R1 V) as (r1' & E1). destruct (absent_compressed _ _ _ _ _ _ _ W' R2 V') as (r2' & E2). eauto.
  - intros SB LL ->. assert (LL' : Z.of_nat (length l') < 2 ^ 32 - 3) by (rewrite <- (Permutation_length PL); exact LL).
    destruct (program_header _ _ _ _ _ _ _ _ _ _ _ _ _ _ _ _ _ _ _ _ TR N TP SB LL R1) as (m1 & ds1 & PL1 & FB1 & _ & _ & _ & _ & _ & G1). destruct (program_header _ _ _ _ _ _ _ _ _ _ _ _ _ _ _ _ _ _ _ _ TR' N' TP' SB LL' R2) as (m2 & ds2 & PL2 & FB2 & _ & _ & _ & _ & _ & G2).
    apply (global_same (bounds_of ds1) (bounds_of ds2)); auto. eapply bounds_perm; [|exact FB1|exact FB2]. rewrite <- PL1, <- PL2. exact PL.
Qed.
Print Assumptions C56_schedule_independent.
(* transforming succeeds, under every schedule, for points that the Writer can store *)
Theorem C56_succeeds : forall cd f hs h P p od nodes res r l tf c0 T upd chunk c v w0 w1 o,
  transforms cd f hs h P p od nodes res r l tf (c_hdr c0) T -> 0 < chunk -> open_writer None c v = Ok w0 -> init_writer c v = Ok c0 -> ready c0 -> (forall n, In n l -> packable cd (c_hdr c0) (T n)) ->
  Z.of_nat (length (file w0)) + 2 ^ 31 * Z.of_nat (length l) < 2 ^ 63 ->
  transform_copc cd tf upd od nodes res chunk r p w0 w1 o -> o = Ok tt.
Proof. exact transform_succeeds. Qed.
Print Assumptions C56_succeeds.
