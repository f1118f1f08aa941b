(* ProofOpen3.v - the records of an arbitrary file that a reader opened *)
From Verif Require Import Base BaseFacts ModelFloat ModelKey ModelGeom ModelEntry ModelPoint ModelPoints ModelHeader ModelVlr ModelExtents ModelConfig
  ModelStream ModelWriter ModelReader SpecWriter SpecFile SpecOpen ProofStream ProofFile ProofOpen2.

(* ---- fields by position ---- *)
Lemma take_at n a f x r : 0 <= a -> take_bytes n (skipn (Z.to_nat a) f) = Some (x, r) -> x = bytes_at a (Z.of_nat n) f /\ r = skipn (Z.to_nat (a + Z.of_nat n)) f /\ a + Z.of_nat n <= Z.max a (Z.of_nat (length f)).
Proof.
  intros A. unfold take_bytes. destruct (Nat.leb_spec n (length (skipn (Z.to_nat a) f))) as [L|]; [|discriminate]. intros H. injection H as <- <-. unfold bytes_at. rewrite Nat2Z.id.
  split; [reflexivity|]. rewrite skipn_length in L. split; [|lia]. rewrite skipn_add. f_equal. lia.
Qed.
Lemma dec_u_at n a f v r : 0 <= a -> dec_u n (skipn (Z.to_nat a) f) = Some (v, r) -> v = num_at a (Z.of_nat n) f /\ r = skipn (Z.to_nat (a + Z.of_nat n)) f.
Proof.
  intros A. unfold dec_u. destruct (take_bytes n _) as [(x, r')|] eqn:E; [|discriminate]. intros H. injection H as <- <-. destruct (take_at _ _ _ _ _ A E) as (-> & -> & _). auto.
Qed.
Lemma firstn_in {A} (x : A) n l : In x (firstn n l) -> In x l.
Proof. intros H. rewrite <- (firstn_skipn n l). apply in_or_app. now left. Qed.
Lemma skipn_in {A} (x : A) n l : In x (skipn n l) -> In x l.
Proof. intros H. rewrite <- (firstn_skipn n l). apply in_or_app. now right. Qed.
Lemma num_range a n f : wf_bytes f -> 0 <= n -> 0 <= num_at a n f < 2 ^ (8 * n).
Proof.
  intros W N. unfold num_at. set (x := bytes_at a n f). assert (WX : wf_bytes x). { unfold x, bytes_at. apply Forall_forall. intros b I. apply firstn_in, skipn_in in I. unfold wf_bytes in W. rewrite Forall_forall in W. now apply W. }
  pose proof (le_dec_bound x WX) as R. assert (Z.of_nat (length x) <= n) by (unfold x, bytes_at; rewrite firstn_length; lia).
  split; [lia|]. apply Z.lt_le_trans with (2 ^ (8 * Z.of_nat (length x))); [lia|]. apply Z.pow_le_mono_r; lia.
Qed.
Lemma trim_split x : x = trim_nul x ++ zeros (length x - length (trim_nul x)).
Proof.
  induction x as [|c x IH]; [reflexivity|]. cbn [trim_nul]. destruct (trim_nul x) as [|t ts] eqn:E.
  - cbn [app length] in IH. rewrite Nat.sub_0_r in IH. destruct (Z.eqb_spec c 0) as [->|N].
    + cbn [app length]. rewrite Nat.sub_0_r. rewrite IH at 1. reflexivity.
    + cbn [app length]. replace (S (length x) - 1)%nat with (length x) by lia. now rewrite <- IH.
  - cbn [app length] in *. replace (S (length x) - S (S (length ts)))%nat with (length x - S (length ts))%nat by lia. f_equal. exact IH.
Qed.
Definition named (f : bytes) (p : Z) : bool := str_eqb (trim_nul (bytes_at (p + 2) 16 f)) s_las_proj && (num_at (p + 18) 2 f =? 2112).
Lemma named_wkt f p : length (bytes_at (p + 2) 16 f) = 16%nat -> named f p = true <-> wkt_at f p.
Proof.
  intros L. unfold named, wkt_at, str_eqb. rewrite andb_true_iff, Z.eqb_eq. split; intros (A & B); (split; [|exact B]).
  - destruct (list_eq_dec _ _ _) as [E|]; [|discriminate]. rewrite (trim_split (bytes_at (p + 2) 16 f)), E, L. reflexivity.
  - rewrite A. reflexivity.
Qed.
(* ---- record headers ---- *)
Definition lenw (e : bool) : Z := if e then 8 else 2.
Lemma dec_at e p f v r : 0 <= p -> dec_of e (skipn (Z.to_nat p) f) = Some (v, r) ->
  v_user v = trim_nul (bytes_at (p + 2) 16 f) /\ v_rec v = num_at (p + 18) 2 f /\ v_len v = num_at (p + 20) (lenw e) f /\ length (bytes_at (p + 2) 16 f) = 16%nat.
Proof.
  intros P H. assert (TB : forall n a x r0, take_bytes n a = Some (x, r0) -> length x = n). { intros n a x r0. unfold take_bytes. destruct (Nat.leb_spec n (length a)); [|discriminate]. intros Q. injection Q as <- _. now rewrite firstn_length_le. }
  destruct e; unfold dec_of in H; [unfold dec_evlr_header in H|unfold dec_vlr_header in H].
  - destruct (dec_u 2 _) as [(x1, b1)|] eqn:E1; [|discriminate]. apply dec_u_at in E1 as (_ & ->); [|exact P].
    destruct (take_bytes 16 _) as [(x2, b2)|] eqn:E2; [|discriminate]. pose proof (TB _ _ _ _ E2) as L2. apply take_at in E2 as (-> & -> & _); [|lia].
    destruct (dec_u 2 _) as [(x3, b3)|] eqn:E3; [|discriminate]. apply dec_u_at in E3 as (-> & ->); [|lia].
    destruct (dec_u 8 _) as [(x4, b4)|] eqn:E4; [|discriminate]. apply dec_u_at in E4 as (-> & ->); [|lia].
    destruct (take_bytes 32 _) as [(x5, b5)|]; [|discriminate]. injection H as <- _. cbn [v_user v_rec v_len lenw].
    replace (p + Z.of_nat 2) with (p + 2) in * by lia. replace (p + 2 + Z.of_nat 16) with (p + 18) by lia. replace (p + 18 + Z.of_nat 2) with (p + 20) by lia. auto.
  - destruct (dec_u 2 _) as [(x1, b1)|] eqn:E1; [|discriminate]. apply dec_u_at in E1 as (_ & ->); [|exact P].
    destruct (take_bytes 16 _) as [(x2, b2)|] eqn:E2; [|discriminate]. pose proof (TB _ _ _ _ E2) as L2. apply take_at in E2 as (-> & -> & _); [|lia].
    destruct (dec_u 2 _) as [(x3, b3)|] eqn:E3; [|discriminate]. apply dec_u_at in E3 as (-> & ->); [|lia].
    destruct (dec_u 2 (skipn (Z.to_nat (p + Z.of_nat 2 + Z.of_nat 16 + Z.of_nat 2)) f)) as [(x4, b4)|] eqn:E4; [|discriminate]. apply dec_u_at in E4 as (-> & ->); [|lia].
    destruct (take_bytes 32 _) as [(x5, b5)|]; [|discriminate]. injection H as <- _. cbn [v_user v_rec v_len lenw].
    replace (p + Z.of_nat 2) with (p + 2) in * by lia. replace (p + 2 + Z.of_nat 16) with (p + 18) by lia. replace (p + 18 + Z.of_nat 2) with (p + 20) by lia. auto.
Qed.
(* v is the header of the record of kind e at p *)
Definition record_of (f : bytes) (e : bool) (p : Z) (v : vlr_header) : Prop :=
  0 <= p /\ v_user v = trim_nul (bytes_at (p + 2) 16 f) /\ v_rec v = num_at (p + 18) 2 f /\ v_len v = num_at (p + 20) (lenw e) f /\ length (bytes_at (p + 2) 16 f) = 16%nat.
Lemma vins_in o v m p w : In (p, w) (vins o v m) -> (p = o /\ w = v) \/ In (p, w) m.
Proof.
  induction m as [|(q, u) m IH]; cbn [vins]; [intros [H|[]]; injection H; auto|]. destruct (o <? q); [intros [H|H]; [injection H; auto|auto]|]. destruct (o =? q); [auto|].
  intros [H|H]; [right; left; exact H|]. destruct (IH H); [auto|right; right; auto].
Qed.
Definition sorted_at (m : vlr_map) : Prop := ForallOrdPairs (fun a b => fst a < fst b) m.
Lemma vins_sorted o v m : sorted_at m -> sorted_at (vins o v m).
Proof.
  induction 1 as [|(q, u) m F S IH]; cbn [vins]; [repeat constructor|]. destruct (Z.ltb_spec o q).
  - constructor; [|now constructor]. constructor; [exact H|]. eapply Forall_impl; [|exact F]. cbn. intros a Ha. lia.
  - destruct (Z.eqb_spec o q); [now constructor|]. constructor; [|exact IH]. apply Forall_forall. intros (p, w) I. apply vins_in in I as [(-> & _)|I]; [cbn; lia|]. rewrite Forall_forall in F. now apply F.
Qed.
Lemma vins_keeps o v m p w : sorted_at m -> vget p m = Some w -> vget p (vins o v m) = Some w.
Proof.
  induction 1 as [|(q, u) m F S IH]; cbn [vins vget]; [discriminate|]. intros H. destruct (Z.ltb_spec o q).
  - cbn [vget]. destruct (Z.eqb_spec o p) as [->|]; [|exact H]. destruct (Z.eqb_spec q p); [lia|]. exfalso. clear - H F H0. induction m as [|(a, b) m IH]; [discriminate|]. inversion F as [|? ? F1 F2]; subst. cbn [vget fst] in *.
    destruct (Z.eqb_spec a p); [lia|]. now apply IH.
  - destruct (Z.eqb_spec o q); [exact H|]. cbn [vget]. destruct (q =? p); [exact H|]. now apply IH.
Qed.
Lemma vins_has o v m : sorted_at m -> exists w, vget o (vins o v m) = Some w.
Proof.
  induction 1 as [|(q, u) m F S IH]; cbn [vins]; [exists v; cbn; now rewrite Z.eqb_refl|]. destruct (o <? q); [exists v; cbn; now rewrite Z.eqb_refl|].
  destruct (Z.eqb_spec o q) as [->|]; [exists u; cbn; now rewrite Z.eqb_refl|]. cbn [vget]. destruct (Z.eqb_spec q o); [congruence|]. exact IH.
Qed.
Lemma vget_in p m w : vget p m = Some w -> In (p, w) m.
Proof. induction m as [|(q, u) m IH]; cbn [vget]; [discriminate|]. destruct (Z.eqb_spec q p) as [->|]; [intros H; injection H as ->; now left|]. intros H. right. auto. Qed.
Lemma in_vget p m w : sorted_at m -> In (p, w) m -> vget p m = Some w.
Proof.
  induction 1 as [|(q, u) m F S IH]; [contradiction|]. intros [H|H]; cbn [vget].
  - injection H as -> ->. now rewrite Z.eqb_refl.
  - rewrite Forall_forall in F. specialize (F _ H). cbn in F. destruct (Z.eqb_spec q p); [lia|]. auto.
Qed.
Lemma fetch_cases m user id : (fetch_vlr m user id = 0 /\ forall p v, In (p, v) m -> str_eqb (v_user v) user && (v_rec v =? id) = false) \/
  exists p v, In (p, v) m /\ str_eqb (v_user v) user && (v_rec v =? id) = true /\ fetch_vlr m user id = p.
Proof.
  induction m as [|(q, u) m IH]; cbn [fetch_vlr]; [left; split; [reflexivity|contradiction]|]. destruct (_ && _) eqn:E.
  - right. exists q, u. auto using in_eq.
  - destruct IH as [(A & B)|(p & v & A & B & C)]; [left|right; exists p, v; auto using in_cons]. split; [exact A|]. intros p v [H|H]; [injection H as <- <-; exact E|eauto].
Qed.
(* the records of one directory *)
Lemma read_dir e f : wf_bytes f -> forall n pos m m', 0 <= pos -> sorted_at m -> read_vlr_headers (dec_of e) (rec_head e) n pos f m = Ok m' ->
  sorted_at m' /\ (forall p v, vget p m = Some v -> vget p m' = Some v) /\
  (forall p v, In (p, v) m' -> In (p, v) m \/ (exists i, (i < n)%nat /\ p = follow (rec_head e) (lenw e) i pos f) /\ record_of f e p v) /\
  (forall i, (i < n)%nat -> exists v, vget (follow (rec_head e) (lenw e) i pos f) m' = Some v /\ length (bytes_at (follow (rec_head e) (lenw e) i pos f + 2) 16 f) = 16%nat).
Proof.
  intros W. induction n as [|n IH]; intros pos m m' P S H; cbn [read_vlr_headers] in H.
  { injection H as <-. split; [exact S|]. split; [auto|]. split; [auto|]. intros i L. lia. }
  destruct (_ || _); [discriminate|]. destruct (dec_of e (skipn (Z.to_nat pos) f)) as [(v, r)|] eqn:D; [|discriminate]. destruct (dec_at _ _ _ _ _ P D) as (D1 & D2 & D3 & D4).
  assert (LW : 0 <= lenw e) by (destruct e; cbn; lia). pose proof (num_range (pos + 20) (lenw e) f W LW) as NR. assert (RH : 0 < rec_head e) by (destruct e; cbn; lia).
  assert (P2 : 0 <= pos + rec_head e + v_len v) by lia. destruct (IH _ _ _ P2 (vins_sorted pos v m S) H) as (A1 & A2 & A3 & A4). split; [exact A1|]. split; [intros p w Q; apply A2; now apply vins_keeps|]. rewrite D3 in A3, A4. split.
  - intros p w I. destruct (A3 p w I) as [J|((i & L & E) & R)].
    + apply vins_in in J as [(-> & ->)|J]; [|auto]. right. split; [exists O; split; [lia|reflexivity]|]. split; auto.
    + right. split; [|exact R]. exists (Datatypes.S i). split; [lia|exact E].
  - intros [|i] L; [|apply A4; lia]. cbn [follow]. destruct (vins_has pos v m S) as (w & Q). exists w. split; [now apply A2|exact D4].
Qed.

Lemma header_counts f l : read_header14 f = Ok l -> l_hsize l = las_header_size f /\ l_vlrs l = las_vlr_count f /\ l_evoff l = las_evlr_offset f /\ l_evcnt l = las_evlr_count f /\ firstn 4 f = LASF.
Proof.
  unfold read_header14. destruct (dec_header14 f) as [((mg, h), r)|] eqn:D; [|discriminate]. destruct (list_eq_dec Z.eq_dec mg LASF) as [->|]; cbn [negb]; [|discriminate].
  destruct (_ =? 0); [discriminate|]. intros H. injection H as <-. cbn [l_hsize l_vlrs l_evoff l_evcnt]. unfold dec_header14 in D.
  assert (TK : forall n a x r0, 0 <= a -> take_bytes n (skipn (Z.to_nat a) f) = Some (x, r0) -> r0 = skipn (Z.to_nat (a + Z.of_nat n)) f) by (intros n a x r0 A Q; apply take_at in Q as (_ & Q & _); auto).
  assert (MN : forall n k a x r0, 0 <= a -> dec_many n (dec_u k) (skipn (Z.to_nat a) f) = Some (x, r0) -> r0 = skipn (Z.to_nat (a + Z.of_nat n * Z.of_nat k)) f).
  { induction n as [|n IH]; intros k a x r0 A Q; cbn [dec_many] in Q; [injection Q as _ <-; f_equal; f_equal; lia|]. destruct (dec_u k _) as [(y, b)|] eqn:E; [|discriminate]. apply dec_u_at in E as (_ & ->); [|exact A].
    destruct (dec_many n _ _) as [(ys, b')|] eqn:E2; [|discriminate]. injection Q as _ <-. apply IH in E2; [|lia]. rewrite E2. f_equal. f_equal. lia. }
  assert (FL : forall a x r0, 0 <= a -> dec_f64 (skipn (Z.to_nat a) f) = Some (x, r0) -> r0 = skipn (Z.to_nat (a + 8)) f).
  { intros a x r0 A Q. unfold dec_f64 in Q. destruct (dec_u 8 _) as [(y, b)|] eqn:E; [|discriminate]. apply dec_u_at in E as (_ & ->); [|exact A]. injection Q as _ <-. reflexivity. }
  assert (VC : forall a x r0, 0 <= a -> dec_vec (skipn (Z.to_nat a) f) = Some (x, r0) -> r0 = skipn (Z.to_nat (a + 24)) f).
  { intros a x r0 A Q. unfold dec_vec in Q. destruct (dec_f64 _) as [(y, b)|] eqn:E; [|discriminate]. apply FL in E as ->; [|exact A].
    destruct (dec_f64 _) as [(y2, b)|] eqn:E; [|discriminate]. apply FL in E as ->; [|lia]. destruct (dec_f64 _) as [(y3, b)|] eqn:E; [|discriminate]. apply FL in E as ->; [|lia]. injection Q as _ <-. f_equal. f_equal. lia. }
  change f with (skipn (Z.to_nat 0) f) in D at 1.
  destruct (take_bytes 4 _) as [(mg, b)|] eqn:E0; [|discriminate]. pose proof (take_at 4 0 f _ _ ltac:(lia) E0) as (M0 & _). apply TK in E0 as ->; [|lia].
  Ltac step TK MN FL VC D :=
    match type of D with
    | (match take_bytes ?n ?x with _ => _ end) = _ => let E := fresh "E" in destruct (take_bytes n x) as [(?, ?)|] eqn:E; [|discriminate D]; apply TK in E; [|lia]; subst
    | (match dec_u ?n ?x with _ => _ end) = _ => let E := fresh "E" in destruct (dec_u n x) as [(?, ?)|] eqn:E; [|discriminate D]; apply dec_u_at in E as (? & ?); [|lia]; subst
    | (match dec_many ?n ?k ?x with _ => _ end) = _ => let E := fresh "E" in destruct (dec_many n k x) as [(?, ?)|] eqn:E; [|discriminate D]; apply MN in E; [|lia]; subst
    | (match dec_vec ?x with _ => _ end) = _ => let E := fresh "E" in destruct (dec_vec x) as [(?, ?)|] eqn:E; [|discriminate D]; apply VC in E; [|lia]; subst
    | (match dec_f64 ?x with _ => _ end) = _ => let E := fresh "E" in destruct (dec_f64 x) as [(?, ?)|] eqn:E; [|discriminate D]; apply FL in E; [|lia]; subst
    end.
  repeat step TK MN FL VC D. apply (f_equal (fun o => match o with Some (x, y, _) => Some (x, y) | None => None end)) in D. injection D as M9 <-. cbn [l_hsize l_vlrs l_evoff l_evcnt].
  split; [unfold las_header_size; f_equal|]. split; [unfold las_vlr_count; f_equal|]. split; [unfold las_evlr_offset; f_equal|]. split; [unfold las_evlr_count; f_equal|]. exact M9.
Qed.
(* ---- the WKT that a reader reports ---- *)
Section Opened.
Variables (f : bytes) (b : base_reader).
Hypotheses (W : wf_bytes f) (I : init_reader f = Ok b).
Lemma opened_map : exists m, read_wkt m f = Ok (z_wkt (br_cfg b)) /\ sorted_at m /\ firstn 4 f = LASF /\
  (forall p v, In (p, v) m -> (exists i, Z.of_nat i < las_vlr_count f /\ p = vlr_pos f i /\ record_of f false p v) \/ (exists i, Z.of_nat i < las_evlr_count f /\ p = evlr_pos f i /\ record_of f true p v)) /\
  (forall i, Z.of_nat i < las_vlr_count f -> exists v, vget (vlr_pos f i) m = Some v /\ length (bytes_at (vlr_pos f i + 2) 16 f) = 16%nat /\ record_of f false (vlr_pos f i) v) /\
  (forall i, Z.of_nat i < las_evlr_count f -> exists v, vget (evlr_pos f i) m = Some v /\ length (bytes_at (evlr_pos f i + 2) 16 f) = 16%nat).
Proof.
  unfold init_reader in I. apply bind_ok in I as (l & L & I1). apply bind_ok in I1 as (h & H & I1). apply bind_ok in I1 as (m & M & I1). apply bind_ok in I1 as (wkt & K & I1). apply bind_ok in I1 as (ebs & EB & I1).
  injection I1 as <-. cbn [br_cfg z_wkt]. destruct (header_counts f l L) as (C1 & C2 & C3 & C4 & C5). exists m. split; [exact K|]. unfold read_all_vlrs in M. apply bind_ok in M as (m1 & M1 & M2).
  rewrite C1, C2 in M1. rewrite C3, C4 in M2. assert (S0 : sorted_at []) by constructor.
  pose proof (num_range 94 2 f W ltac:(lia)) as R1. pose proof (num_range 235 8 f W ltac:(lia)) as R2. 
  destruct (read_dir false f W _ _ _ _ (proj1 R1) S0 M1) as (A1 & A2 & A3 & A4). destruct (read_dir true f W _ _ _ _ (proj1 R2) A1 M2) as (B1 & B2 & B3 & B4).
  split; [exact B1|]. split; [exact C5|]. split; [|split].
  - intros p v J. destruct (B3 p v J) as [Q|((i & Q & E) & R)].
    + left. destruct (A3 p v Q) as [[]|((i & Q' & E) & R)]. exists i. split; [lia|]. split; [exact E|exact R].
    + right. exists i. split; [lia|]. split; [exact E|exact R].
  - intros i Q. destruct (A4 i ltac:(lia)) as (v & E & E2). exists v. split; [now apply B2|]. split; [exact E2|].
    apply vget_in, A3 in E as [[]|(_ & R)]. exact R.
  - intros i Q. exact (B4 i ltac:(lia)).
Qed.
Lemma wkt_not_zero p : firstn 4 f = LASF -> wkt_at f p -> 0 <= p -> p <> 0.
Proof.
  intros L (A & _) P ->. change (bytes_at (0 + 2) 16 f) with (firstn 16 (skipn 2 f)) in A. destruct f as [|a [|c [|d g]]]; try discriminate. cbn [skipn firstn] in A, L. unfold LASF in L. congruence.
Qed.
Lemma dec_wkt_at p n x : 0 <= p -> 0 <= n -> dec_wkt n (skipn (Z.to_nat p) f) = Ok x -> x = bytes_at p n f.
Proof.
  intros P N H. unfold dec_wkt in H. destruct (Z.ltb_spec n 0); [lia|]. destruct (take_bytes _ _) as [(y, r)|] eqn:E; [|discriminate]. injection H as <-.
  apply take_at in E as (-> & _); [|exact P]. f_equal. lia.
Qed.
Lemma hit_wkt e p v : record_of f e p v -> str_eqb (v_user v) s_las_proj && (v_rec v =? 2112) = true <-> wkt_at f p.
Proof. intros (A1 & A2 & A3 & A4 & A5). rewrite <- (named_wkt f p A5). unfold named. now rewrite A2, A3. Qed.
Lemma opened_evlr i : only_wkt_evlr f i -> num_at (evlr_pos f i + 20) 8 f < 2 ^ 31 -> z_wkt (br_cfg b) = evlr_data f (evlr_pos f i).
Proof.
  intros (O1 & O2 & O3 & O4) LN. destruct opened_map as (m & K & S & LS & A & _ & B). destruct (B i O1) as (v & G & _). pose proof (vget_in _ _ _ G) as J.
  assert (R : record_of f true (evlr_pos f i) v). { destruct (A _ _ J) as [(j & Q & E & R)|(j & Q & E & R)]; [|exact R]. rewrite E in O2. now apply O3 in O2. }
  pose proof R as (P & _ & _ & L & _). pose proof (wkt_not_zero _ LS O2 P) as NZ. set (p := evlr_pos f i) in *.
  assert (F : fetch_vlr m s_las_proj 2112 = p).
  { destruct (fetch_cases m s_las_proj 2112) as [(_ & X)|(q & u & Q1 & Q2 & ->)]; [apply (hit_wkt true p v R) in O2; rewrite (X _ _ J) in O2; discriminate|].
    destruct (A _ _ Q1) as [(j & Q & -> & R')|(j & Q & -> & R')]; apply (hit_wkt _ _ _ R') in Q2; [now apply O3 in Q2|]. now rewrite (O4 j Q Q2). }
  unfold read_wkt in K. rewrite F in K. destruct (Z.eqb_spec p 0); [contradiction|]. unfold len_at in K. rewrite G, L in K. cbn [lenw] in K. pose proof (num_range (p + 20) 8 f W ltac:(lia)) as NR.
  rewrite to_s_id in K by (change (2 ^ (32 - 1)) with (2 ^ 31); lia). apply dec_wkt_at in K; [exact K|unfold EVLR_HEADER_SIZE; lia|lia].
Qed.
Lemma opened_vlr i : only_wkt_vlr f i -> z_wkt (br_cfg b) = bytes_at (vlr_pos f i + 60) (num_at (vlr_pos f i + 20) 2 f) f.
Proof.
  intros (O1 & O2 & O3 & O4). destruct opened_map as (m & K & S & LS & A & B & _). destruct (B i O1) as (v & G & _ & R). pose proof (vget_in _ _ _ G) as J.
  pose proof R as (P & _ & _ & L & _). pose proof (wkt_not_zero _ LS O2 P) as NZ. set (p := vlr_pos f i) in *.
  assert (F : fetch_vlr m s_las_proj 2112 = p).
  { destruct (fetch_cases m s_las_proj 2112) as [(_ & X)|(q & u & Q1 & Q2 & ->)]; [apply (hit_wkt false p v R) in O2; rewrite (X _ _ J) in O2; discriminate|].
    destruct (A _ _ Q1) as [(j & Q & -> & R')|(j & Q & -> & R')]; apply (hit_wkt _ _ _ R') in Q2; [|now apply O3 in Q2]. now rewrite (O4 j Q Q2). }
  unfold read_wkt in K. rewrite F in K. destruct (Z.eqb_spec p 0); [contradiction|]. unfold len_at in K. rewrite G, L in K. cbn [lenw] in K. pose proof (num_range (p + 20) 2 f W ltac:(lia)) as NR.
  change (2 ^ (8 * 2)) with 65536 in NR. rewrite to_s_id in K by (change (2 ^ (32 - 1)) with 2147483648; lia). apply dec_wkt_at in K; [exact K|unfold EVLR_HEADER_SIZE; lia|lia].
Qed.
Lemma opened_none : no_wkt f -> z_wkt (br_cfg b) = [].
Proof.
  intros (N1 & N2). destruct opened_map as (m & K & S & LS & A & _). unfold read_wkt in K. destruct (fetch_cases m s_las_proj 2112) as [(X & _)|(q & u & Q1 & Q2 & E)].
  - rewrite X in K. cbn in K. now injection K.
  - exfalso. destruct (A _ _ Q1) as [(j & Q & -> & R')|(j & Q & -> & R')]; apply (hit_wkt _ _ _ R') in Q2; [now apply N1 in Q2|now apply N2 in Q2].
Qed.
End Opened.
Lemma opened_base isf f r : open_reader isf f = Ok r -> exists b, init_reader f = Ok b /\ c_wkt (r_cfg r) = z_wkt (br_cfg b).
Proof.
  unfold open_reader. intros H. apply bind_ok in H as (b & B & H). destruct (_ || _); [discriminate|]. apply bind_ok in H as (i & _ & H). apply bind_ok in H as (x & _ & H). apply bind_ok in H as (c & C & H). injection H as <-.
  exists b. split; [exact B|]. cbn [r_cfg]. unfold config_of in C. apply bind_ok in C as (y & _ & C). now injection C as <-.
Qed.
