(* ProofData3.v - queries for data that the file has leave the stream good *)
From Verif Require Import Base BaseFacts ModelFloat ModelKey ModelGeom ModelEntry ModelPoint ModelPoints ModelHeader ModelVlr ModelExtents ModelConfig
  ModelStream ModelWriter ModelReader SpecKey SpecPoint SpecPoints SpecGeom SpecWriter SpecHier SpecReader SpecData
  ProofKey ProofPoints ProofReader ProofReader2 ProofReader3 ProofReader4 ProofReader6 ProofData ProofData2.
Open Scope Z_scope.

Lemma add_from_still g r : forall l, (forall n hp out, In n l -> fst (g n hp out r) = r) -> forall hp out, fst (add_from g l hp out r) = r.
Proof.
  induction l as [|n l IH]; intros G hp out; cbn [add_from]; [reflexivity|]. pose proof (G n hp out (or_introl eq_refl)) as H.
  destruct (g n hp out r) as (r1, [(hp1, out1)| |]); cbn [fst] in H; subst r1; try reflexivity. apply IH. intros m a b I. apply G. now right.
Qed.
Lemma add_all_still cd n hp out r : fst (get_points_node cd hp n r) = r -> fst (add_all_of cd n hp out r) = r.
Proof. unfold add_all_of. destruct (get_points_node cd hp n r) as (r1, [(a, b)| |]); auto. Qed.
Lemma add_some_still cd b n hp out r : fst (get_points_node cd hp n r) = r -> fst (add_some_of cd b n hp out r) = r.
Proof. unfold add_some_of. destruct (get_points_node cd hp n r) as (r1, [(a, c)| |]); auto. Qed.
Lemma validate_still cd v r : forall l, (forall n, In n l -> fst (get_points_node cd [] n r) = r) -> forall t1 t2 b, fst (validate_nodes cd v l t1 t2 b r) = r.
Proof.
  induction l as [|n l IH]; intros G t1 t2 b; cbn [validate_nodes]; [reflexivity|]. assert (IH' := IH (fun m I => G m (or_intror I))). clear IH.
  destruct (header_bounds _ _) as [hb| |]; try reflexivity. destruct (box_intersects _ _); cbn [negb].
  - pose proof (G n (or_introl eq_refl)) as H. destruct (get_points_node cd [] n r) as (r1, [(hp, c)| |]); cbn [fst] in H; subst r1; try reflexivity.
    match goal with |- context [match ?x with Ok _ => _ | Throw => _ | UB => _ end] => destruct x as [[((a1, a2), a3)|]| |] end; try reflexivity. apply IH'.
  - destruct v; cbn [negb]; [|reflexivity]. destruct (add_int _ _); try reflexivity. apply IH'.
Qed.

Section Stored.
Variables (cd : codec) (f : bytes) (off size : Z) (hs : list page_info) (c : config).
Hypothesis S0 : stored_hierarchy f off size hs.
Hypothesis FL : Z.of_nat (length f) < 2 ^ 63.
Let T := hierarchy_tree f off size hs S0.
Definition calm (r : reader) : Prop := good f hs r /\ r_cfg r = c.
Notation kept_calm := (kept calm grows).

Lemma calm_parse r i p r' o : calm r -> nth_error (r_pages r) i = Some p -> rp_loaded p = false -> read_and_parse i r = (r', o) -> calm r' /\ grows r r'.
Proof.
  intros ((R & F) & C) P L E. destruct (ri_page _ _ _ R i p P) as (_ & h & H1 & H2 & _).
  destruct (parse_spec f off size hs T FL r i p h R F P L H1 H2) as [(I & _)|(_ & r1 & E1 & R1 & F1 & G & _)].
  - rewrite (all_intact _ _ _ _ S0 h H1) in I. discriminate.
  - rewrite E in E1. pose proof (f_equal fst E1) as Q. cbn in Q. subst r1. split; [|exact G]. split; [split; assumption|]. now rewrite (grows_cfg r r' G).
Qed.
Lemma calm_keep {A} r (x : reader * outcome A) : calm r -> fst x = r -> kept_calm r (Some x).
Proof. intros R E. destruct x as (r', o). cbn in E. subst r'. apply kept_some; [exact R|apply grows_refl]. Qed.
Let k_then {A B} := @kept_then calm grows grows_trans A B.
Let k_find := kept_find calm grows grows_refl grows_trans calm_parse.
Let k_all := kept_all calm grows grows_refl grows_trans calm_parse.
Let k_depth := kept_depth calm grows grows_refl grows_trans calm_parse.

Lemma found_stored k fuel r r' n : calm r -> find_node fuel k r = Some (r', Ok n) -> node_valid n = true -> stored_node hs k n.
Proof.
  intros (G & _) E V. destruct (find_good f off size hs S0 FL k r G) as (r1 & o & (n0 & R) & _ & _ & X1 & X2). specialize (R (Nat.max n0 fuel) ltac:(lia)).
  rewrite (find_mono k _ _ _ _ (Nat.le_max_r n0 fuel) E) in R. injection R as <- <-. destruct (stored_dec f off size hs S0 k) as [(m & M)|N].
  - now injection (X1 m M) as ->.
  - injection (X2 N) as ->. discriminate.
Qed.
Lemma calm_by_key g k fuel r : calm r -> (forall n r, calm r -> stored_node hs k n -> fst (g n r) = r) -> kept_calm r (by_key g fuel k r).
Proof.
  intros R G. unfold by_key. destruct (key_valid k); cbn [negb]; [|apply kept_some; auto using grows_refl].
  intros r' o E. destruct (find_node fuel k r) as [(r1, o1)|] eqn:FN; [|discriminate]. pose proof (k_find k fuel r R _ _ FN) as (R1 & G1). destruct o1 as [n| |]; cbn [and_then] in E.
  - destruct (node_valid n) eqn:V; cbn [negb] in E; [|injection E as <- <-; auto]. pose proof (G n r1 R1 (found_stored k fuel r r1 n R FN V)) as Q. destruct (g n r1) as (r2, o2). cbn in Q. subst r2. injection E as <- <-. auto.
  - injection E as <- <-. auto.
  - injection E as <- <-. auto.
Qed.
Lemma still_data n r : calm r -> (node_valid n = true -> intact_node cd (c_hdr c) f n) -> fst (get_point_data_node cd n r) = r.
Proof.
  intros (G & C) I. destruct (node_valid n) eqn:V; [|unfold get_point_data_node; now rewrite V]. destruct (I eq_refl) as (ps & data & H & _). destruct (good_data f hs r G) as (D & F).
  rewrite (data_ok cd f n data r D F FL V) by (rewrite C; exact H). reflexivity.
Qed.
Lemma still_points n hp r : calm r -> (node_valid n = true -> intact_node cd (c_hdr c) f n) -> fst (get_points_node cd hp n r) = r.
Proof. intros R I. unfold get_points_node. pose proof (still_data n r R I) as E. destruct (get_point_data_node cd n r) as (r1, [d| |]); exact E. Qed.
Lemma still_compressed n r : calm r -> (node_valid n = true -> whole_chunk f n) -> fst (get_compressed_node n r) = r.
Proof.
  intros (G & C) I. destruct (node_valid n) eqn:V; [|unfold get_compressed_node; now rewrite V]. rewrite (compressed_ok f hs FL n r G V (I eq_refl)). reflexivity.
Qed.
Lemma all_stored od fuel r r' l : visits_all od -> calm r -> get_all_nodes fuel od r = Some (r', Ok l) -> forall n, In n l -> stored_nodes hs n.
Proof.
  intros VA (G & _) E. destruct (all_nodes_good f off size hs S0 FL od r VA G) as (r1 & l1 & (n0 & R) & _ & _ & (_ & X) & _). specialize (R (Nat.max n0 fuel) ltac:(lia)).
  unfold get_all_nodes in *. rewrite (children_mono od _ _ _ _ _ (Nat.le_max_r n0 fuel) E) in R. injection R as <- <-. intros n I. now apply X.
Qed.
Lemma calm_all {B} od fuel r (g : list node -> reader -> call B) : visits_all od -> calm r ->
  (forall l r1, calm r1 -> (forall n, In n l -> stored_nodes hs n) -> kept_calm r1 (g l r1)) -> kept_calm r (call! l, r := get_all_nodes fuel od r in g l r).
Proof.
  intros VA R G r' o E. destruct (get_all_nodes fuel od r) as [(r1, o1)|] eqn:A; [|discriminate]. pose proof (k_all od fuel r R _ _ A) as (R1 & G1). destruct o1 as [l| |]; cbn [and_then] in E.
  - destruct (G l r1 R1 (all_stored od fuel r r1 l VA R A) _ _ E) as (R2 & G2). split; [exact R2|eapply grows_trans; eauto].
  - injection E as <- <-. auto.
  - injection E as <- <-. auto.
Qed.
Lemma calm_ask od fuel q r : visits_all od -> calm r -> safe_query cd (c_hdr c) f hs q -> kept_calm r (ask cd od fuel q r).
Proof.
  intros VA R SQ. assert (SV : forall n, stored_nodes hs n -> node_valid n = true) by (intros n N; eapply stored_valid; eauto).
  destruct q; cbn [ask safe_query] in *; try apply kept_forget.
  - now apply k_find.
  - unfold get_points. apply k_then; [apply calm_by_key; auto; intros; apply still_data; auto|]. intros d r1 R1. destruct d; apply kept_some; auto using grows_refl.
  - apply calm_keep; auto using still_points.
  - apply calm_by_key; auto. intros; apply still_data; auto.
  - apply calm_keep; auto using still_data.
  - apply calm_by_key; auto. intros; apply still_compressed; auto.
  - apply calm_keep; auto using still_compressed.
  - now apply (kept_children calm grows grows_refl grows_trans calm_parse).
  - now apply k_all.
  - now apply (kept_pages calm grows grows_refl grows_trans calm_parse).
  - unfold get_all_points. destruct (empty_points _); try (apply kept_some; auto using grows_refl). apply k_then; [now apply k_depth|]. intros d r1 R1.
    apply calm_all; auto. intros l r2 R2 AS. apply calm_keep; auto. apply add_from_still. intros n hp out I. destruct (_ <=? _); [|reflexivity]. apply add_all_still, still_points; auto.
  - now apply k_depth.
  - now apply (kept_select calm grows grows_refl grows_trans calm_parse).
  - now apply (kept_select calm grows grows_refl grows_trans calm_parse).
  - now apply (kept_select calm grows grows_refl grows_trans calm_parse).
  - now apply (kept_select calm grows grows_refl grows_trans calm_parse).
  - unfold get_points_within_box. apply k_then; [now apply k_depth|]. intros d r1 R1. destruct (empty_points _); try (apply kept_some; auto using grows_refl).
    apply calm_all; auto. intros l r2 R2 AS. apply calm_keep; auto. apply add_from_still. intros n hp out I. cbv zeta. destruct (_ <=? _); [|reflexivity].
    destruct (key_within _ _ _ _); [apply add_all_still, still_points; auto|]. destruct (key_intersects _ _ _ _); [apply add_some_still, still_points; auto|reflexivity].
  - unfold validate_spatial_bounds. apply calm_all; auto. intros l r2 R2 AS. apply calm_keep; auto. apply validate_still. intros n I. apply still_points; auto.
Qed.
Lemma calm_asks od fuel : visits_all od -> forall qs r r', calm r -> Forall (safe_query cd (c_hdr c) f hs) qs -> ask_all cd od fuel qs r = Some r' -> calm r' /\ grows r r'.
Proof.
  intros VA. induction qs as [|q qs IH]; intros r r' R SQ E; cbn [ask_all] in E; [injection E as <-; auto using grows_refl|]. inversion SQ as [|? ? Q1 Q2]; subst.
  destruct (ask cd od fuel q r) as [(r1, o)|] eqn:A; [|discriminate]. destruct (calm_ask od fuel q r VA R Q1 _ _ A) as (R1 & G1).
  destruct o; try discriminate; destruct (IH _ _ R1 Q2 E) as (R2 & G2); (split; [exact R2|eapply grows_trans; eauto]).
Qed.
End Stored.
