(* ProofWriter.v - chunks: invariant of the base writer *)
From Verif Require Import Base BaseFacts ModelFloat ModelKey ModelGeom ModelEntry ModelPoint ModelPoints ModelHeader ModelVlr ModelExtents ModelConfig
  ModelStream ModelWriter SpecKey SpecPoint SpecConfig SpecWriter ProofKey ProofPoint ProofPoints ProofExtents ProofConfig ProofStream.

(* what Close relies on: preserved by every change through CopcConfig() *)
Definition cfg_ok (c : config) : Prop :=
  h_copc (c_hdr c) = true /\ 6 <= h_fmt (c_hdr c) <= 8 /\ xs_fmt (c_exts c) = h_fmt (c_hdr c) /\
  shaped (c_exts c) (Z.of_nat (length (c_ebs c))) /\
  Forall (fun e => 0 <= eb_type e <= 30) (c_ebs c) /\ h_reclen (c_hdr c) = las_base (h_fmt (c_hdr c)) + eb_total (c_ebs c) /\
  wf_hdr (c_hdr c) /\ wf_info (c_info c) /\ Forall wf_eb (c_ebs c).
Lemma ready_ok c : ready c -> cfg_ok c.
Proof. intros ((A & B & C & D & _ & E & F) & W & I & X). repeat (split; [assumption|]). assumption. Qed.

Lemma good_eb_size c : cfg_ok c -> h_eb_size (c_hdr c) = Ok (h_reclen (c_hdr c) - las_base (h_fmt (c_hdr c))) /\
  0 <= h_reclen (c_hdr c) - las_base (h_fmt (c_hdr c)) < 65536 /\ 6 <= h_fmt (c_hdr c) <= 8 /\
  h_reclen (c_hdr c) - las_base (h_fmt (c_hdr c)) = eb_total (c_ebs c) /\ 30 <= h_reclen (c_hdr c) < 65536.
Proof.
  intros (_ & F & _ & _ & T & R & W & _ & E). destruct (eb_total_nonneg _ E T) as (N & _).
  destruct W as (_ & _ & _ & _ & _ & _ & _ & RL & _). pose proof (las_base_range (h_fmt (c_hdr c))).
  assert (B : 0 <= h_reclen (c_hdr c) - las_base (h_fmt (c_hdr c)) < 65536) by lia.
  repeat split; try lia. unfold h_eb_size, eb_byte_size. rewrite las_base_ok by assumption. cbn [bind].
  now rewrite small16.
Qed.
Lemma laz_items_length fmt eb : 6 <= fmt <= 8 -> 0 <= eb ->
  Z.of_nat (length (laz_items fmt eb)) = 1 + (if fmt =? 6 then 0 else 1) + (if eb =? 0 then 0 else 1).
Proof.
  intros F E. unfold laz_items. cbn [length]. rewrite app_length.
  assert (H : fmt = 6 \/ fmt = 7 \/ fmt = 8) by lia.
  destruct (Z.ltb_spec 0 eb), (Z.eqb_spec eb 0); try lia; destruct H as [H | [H | H]]; rewrite H; cbn; lia.
Qed.
Lemma good_shape c : cfg_ok c -> shaped (c_exts c) (Z.of_nat (length (c_ebs c))) /\ xs_fmt (c_exts c) = h_fmt (c_hdr c).
Proof. intros (_ & _ & X & S & _). now split. Qed.
Lemma extents_byte_size_ok fmt n : 6 <= fmt <= 8 -> 0 <= n < 65536 -> extents_byte_size fmt n = Ok (16 * (las_dims fmt + n)).
Proof.
  intros F N. unfold extents_byte_size. rewrite new_extents_ok by assumption. cbn [bind]. unfold pairs_size, extents_to_vlr.
  cbn [xs_items]. rewrite map_length, repeat_length. pose proof (las_dims_range fmt). rewrite Z2Nat.id by lia. reflexivity.
Qed.
Lemma copc_offset_ok c : cfg_ok c -> copc_offset c = Ok (data_start c) /\ 375 < data_start c < 2 ^ 32.
Proof.
  intros R. destruct (good_eb_size c R) as (E & B & F & _). destruct (good_shape c R) as ((_ & K & _) & _).
  unfold copc_offset, base_offset. rewrite E. cbn [bind]. rewrite extents_byte_size_ok by assumption. cbn [bind].
  unfold laz_vlr_size. rewrite laz_items_length by lia. unfold data_start, eb_vlr_size, VLR_HEADER_SIZE, HEADER_SIZE, INFO_SIZE.
  set (k := Z.of_nat (length (c_ebs c))) in *. clearbody k.
  pose proof (las_dims_range (h_fmt (c_hdr c))) as LD. set (ld := las_dims _) in *. clearbody ld.
  set (e := _ - las_base _) in *.
  assert (X : (h_reclen (c_hdr c) =? las_base (h_fmt (c_hdr c))) = (e =? 0)) by (unfold e; lia). rewrite X. clearbody e. clear X E R.
  split.
  - f_equal. destruct (Z.ltb_spec 0 (192 * k)), (Z.eqb_spec k 0); try lia; destruct (xs_ext _); lia.
  - destruct (Z.eqb_spec k 0), (xs_ext _), (h_fmt _ =? 6), (e =? 0); lia.
Qed.

(* the parts of a configuration that no change through CopcConfig() touches *)
Definition fixed_parts (c0 c : config) : Prop :=
  h_fmt (c_hdr c) = h_fmt (c_hdr c0) /\ h_reclen (c_hdr c) = h_reclen (c_hdr c0) /\ h_scale (c_hdr c) = h_scale (c_hdr c0) /\
  h_offset (c_hdr c) = h_offset (c_hdr c0) /\ c_wkt c = c_wkt c0 /\ c_ebs c = c_ebs c0 /\ xs_ext (c_exts c) = xs_ext (c_exts c0).
Lemma fixed_refl c : fixed_parts c c. Proof. repeat split. Qed.
Lemma fixed_trans a b c : fixed_parts a b -> fixed_parts b c -> fixed_parts a c.
Proof. unfold fixed_parts. intuition congruence. Qed.
Lemma fixed_start a b : fixed_parts a b -> data_start b = data_start a.
Proof. intros (A & B & _ & _ & _ & C & D). unfold data_start. now rewrite A, B, C, D. Qed.
Lemma fixed_chunk cd a b op : fixed_parts a b -> chunk_of cd (c_hdr b) op = chunk_of cd (c_hdr a) op.
Proof.
  intros (A & B & C & D & _). destruct op; try reflexivity; unfold chunk_of, packed_chunk; rewrite ?A, ?B, ?C, ?D; reflexivity.
Qed.

(* ---- write_chunk ---- *)
Definition cends (start : Z) (cs : list (bytes * Z)) : list (Z * Z) :=
  (fix go s cs := match cs with [] => [] | (x, n) :: r => let s' := s + Z.of_nat (length x) in (to_u 64 n, s') :: go s' r end) start cs.
Definition cdata (cs : list (bytes * Z)) : bytes := concat (map fst cs).
Lemma cends_app s a b : cends s (a ++ b) = cends s a ++ cends (s + Z.of_nat (length (cdata a))) b.
Proof.
  revert s. induction a as [|(x, n) a IH]; intros s; cbn [app].
  - cbn. f_equal. lia.
  - cbn [cends]. rewrite IH. unfold cdata. cbn [map concat fst]. rewrite app_length. cbn [app]. f_equal. f_equal. f_equal. lia.
Qed.
Lemma cdata_app a b : cdata (a ++ b) = cdata a ++ cdata b.
Proof. unfold cdata. now rewrite map_app, concat_app. Qed.
Lemma total_app a b : total_points (a ++ b) = total_points a + total_points b.
Proof. induction a as [|x a IH]; cbn [app total_points fold_right]; unfold total_points in *; lia. Qed.

(* an open writer at the end of a stream holding the reserved header space and the chunks cs *)
Definition binv (start : Z) (cs : list (bytes * Z)) (b : bwriter) : Prop :=
  at_end (b_out b) /\ o_data (b_out b) = zeros (Z.to_nat start) ++ cdata cs /\
  b_open b = true /\ b_chunks b = cends start cs /\ b_points b = to_u 64 (total_points cs) /\ b_evcnt b = 0.

Lemma binv_pos start cs b : 0 < start -> binv start cs b ->
  Z.of_nat (o_pos (b_out b)) = start + Z.of_nat (length (cdata cs)).
Proof. intros S ((_ & _ & P) & D & _). rewrite P, D, app_length, zeros_length. lia. Qed.

Definition chunk_source (cd : codec) (h : las_header) (data : bytes) (count : Z) (compressed : bool) : outcome (bytes * Z) :=
  if compressed then Ok (data, count) else let! eb := h_eb_size h in compress_bytes cd (h_fmt h) eb data.

Lemma write_chunk_spec cd h data count compressed start cs b b' r :
  0 < start -> binv start cs b -> write_chunk cd h data count compressed b = (b', r) ->
  Z.of_nat (length (o_data (b_out b'))) < 2 ^ 64 ->
  match chunk_source cd h data count compressed with
  | Throw => b' = b /\ r = Throw
  | UB => b' = b /\ r = UB
  | Ok (x, n) => binv start (cs ++ [(x, n)]) b' /\
      r = if INT32_MAX <? Z.of_nat (length x) then Throw
          else Ok (start + Z.of_nat (length (cdata cs)), Z.of_nat (length x), n)
  end.
Proof.
  intros S I W L. pose proof (binv_pos _ _ _ S I) as P. pose proof I as (A & D & O & C & PT & EV).
  unfold write_chunk in W. change (if compressed then _ else _) with (chunk_source cd h data count compressed) in W.
  pose proof (at_end_good _ A) as G.
  (* the starting position is below 2^64 because the stream only grows *)
  assert (G0 : Z.of_nat (o_pos (b_out b)) < 2 ^ 64).
  { pose proof A as (_ & _ & Hp).
    destruct (tell64 (b_out b) <=? 0); [injection W as <- <-; lia|].
    destruct (chunk_source cd h data count compressed) as [(x, n)| |]; try (injection W as <- <-; lia).
    assert (E : o_data (b_out b') = o_data (b_out b) ++ x).
    { destruct (tell64 (put x (b_out b)) <=? 0); [|destruct (INT32_MAX <? _)]; injection W as <- <-; cbn [b_out]; rewrite put_end by exact A; reflexivity. }
    rewrite E, app_length in L. lia. }
  rewrite tell64_small in W by assumption. rewrite P in *.
  destruct (Z.leb_spec (start + Z.of_nat (length (cdata cs))) 0); [lia|].
  destruct (chunk_source cd h data count compressed) as [(x, n)| |]; [|injection W as <- <-; auto..].
  rewrite put_end in W by assumption.
  assert (L' : Z.of_nat (length (o_data (b_out b) ++ x)) < 2 ^ 64).
  { destruct (tell64 _ <=? 0) in W; [|destruct (INT32_MAX <? _) in W]; injection W as <- <-; exact L. }
  rewrite tell64_small in W by (assumption || now split). cbn [o_pos] in W.
  assert (LX : Z.of_nat (length (o_data (b_out b) ++ x)) = start + Z.of_nat (length (cdata cs)) + Z.of_nat (length x)).
  { rewrite app_length, D, app_length, zeros_length. lia. }
  rewrite LX in *. destruct (Z.leb_spec (start + Z.of_nat (length (cdata cs)) + Z.of_nat (length x)) 0); [lia|].
  assert (SZ : to_u 64 (start + Z.of_nat (length (cdata cs)) + Z.of_nat (length x) - (start + Z.of_nat (length (cdata cs)))) = Z.of_nat (length x))
    by (unfold to_u; rewrite Z.mod_small; lia).
  rewrite SZ in W.
  assert (B : binv start (cs ++ [(x, n)]) b' /\ r = if INT32_MAX <? Z.of_nat (length x) then Throw
          else Ok (start + Z.of_nat (length (cdata cs)), Z.of_nat (length x), n)); [|exact B].
  assert (E : b' = mkBW (mkOut (o_data (b_out b) ++ x) (length (o_data (b_out b) ++ x)) false None) (b_open b)
                (b_chunks b ++ [(to_u 64 n, start + Z.of_nat (length (cdata cs)) + Z.of_nat (length x))]) (to_u 64 (b_points b + n)) (b_evoff b) (b_evcnt b)
    /\ r = if INT32_MAX <? Z.of_nat (length x) then Throw else Ok (start + Z.of_nat (length (cdata cs)), Z.of_nat (length x), n)).
  { destruct (INT32_MAX <? Z.of_nat (length x)); injection W as <- <-; split; reflexivity. }
  destruct E as (-> & ->). split; [|reflexivity].
  unfold binv; cbn [b_out b_open b_chunks b_points b_evcnt o_data].
  split; [now repeat split|]. split; [rewrite D, cdata_app; unfold cdata at 3; cbn [map fst concat]; rewrite app_nil_r; now rewrite app_assoc|].
  split; [assumption|]. split; [rewrite C, cends_app; reflexivity|]. split; [|assumption].
  rewrite PT, total_app. cbn [total_points fold_right snd]. unfold to_u. rewrite Z.add_mod_idemp_l by lia. f_equal. lia.
Qed.

(* ---- one call ---- *)
Definition add_args (op : wop) : option (key * key) :=
  match op with WAdd k _ p | WAddPoints k _ _ p | WAddCompressed k _ _ p => Some (k, p) | _ => None end.
(* filing a node in a page, creating the page if needed *)
Definition file_node (p k : key) (nd : node) (pages : kmap wpage) : kmap wpage :=
  let pages := if mhas p pages then pages else mset p new_wpage pages in
  let q := match mget p pages with Some q => q | None => new_wpage end in
  mset p (mkWP (wp_off q) (wp_size q) (mset k nd (wp_nodes q)) (wp_subs q)) pages.

Lemma do_add_cases cd k data count compressed p start cs w w' r : 0 < start -> binv start cs (w_base w) ->
  do_add_node cd k data count compressed p w = (w', r) ->
  Z.of_nat (length (file w')) < 2 ^ 64 ->
  (w' = w /\ (r = Throw \/ r = UB)) \/
  exists x n, chunk_source cd (c_hdr (w_cfg w)) data count compressed = Ok (x, n) /\ child_of k p = true /\
    binv start (cs ++ [(x, n)]) (w_base w') /\ w_cfg w' = w_cfg w /\
    ((INT32_MAX < Z.of_nat (length x) /\ r = Throw /\ w_loaded w' = w_loaded w /\ w_pages w' = w_pages w) \/
     (Z.of_nat (length x) <= INT32_MAX /\
      let nd := mkNode (mkEntry k (start + Z.of_nat (length (cdata cs))) (Z.of_nat (length x)) n) p in
      r = Ok nd /\ w_loaded w' = mset k nd (w_loaded w) /\ w_pages w' = file_node p k nd (w_pages w))).
Proof.
  intros S I H L. unfold do_add_node in H.
  destruct (negb (key_valid p) || negb (key_valid k)); [injection H as <- <-; auto|].
  destruct (child_of k p) eqn:C; cbn [negb] in H; [|injection H as <- <-; auto].
  destruct (write_chunk cd (c_hdr (w_cfg w)) data count compressed (w_base w)) as (b, res) eqn:W.
  assert (LB : Z.of_nat (length (o_data (b_out b))) < 2 ^ 64).
  { destruct res as [((off, size), n)| |]; injection H as <- <-; exact L. }
  pose proof (write_chunk_spec _ _ _ _ _ _ _ _ _ _ S I W LB) as X.
  assert (Same : with_base (w_base w) w = w) by now destruct w.
  destruct (chunk_source cd (c_hdr (w_cfg w)) data count compressed) as [(x, n)| |].
  - destruct X as (B & ->). right. exists x, n. split; [reflexivity|]. split; [reflexivity|].
    destruct (Z.ltb_spec INT32_MAX (Z.of_nat (length x))) as [Hx|Hx]; injection H as <- <-;
      cbn [with_base w_base w_cfg w_loaded w_pages]; split; try assumption; split; try reflexivity; [left|right]; now repeat split.
  - destruct X as (-> & ->). injection H as <- <-. left. rewrite Same. auto.
  - destruct X as (-> & ->). injection H as <- <-. left. rewrite Same. auto.
Qed.

Lemma source_packed cd c data x n : cfg_ok c -> chunk_source cd (c_hdr c) data 0 false = Ok (x, n) ->
  (x, n) = packed_chunk cd (c_hdr c) data /\ Z.of_nat (length data) = n * h_reclen (c_hdr c) /\ n <= INT32_MAX.
Proof.
  intros G H. destruct (good_eb_size c G) as (E & B & F & _ & R). unfold chunk_source in H. rewrite E in H. cbn [bind] in H.
  unfold compress_bytes in H. rewrite point_byte_size_ok in H by assumption. cbn [bind] in H.
  replace (las_base (h_fmt (c_hdr c)) + (h_reclen (c_hdr c) - las_base (h_fmt (c_hdr c)))) with (h_reclen (c_hdr c)) in H by lia.
  rewrite small16 in H by lia.
  destruct (Z.eqb_spec (h_reclen (c_hdr c)) 0); [lia|].
  destruct (Z.eqb_spec (Z.of_nat (length data) mod h_reclen (c_hdr c)) 0) as [M|M]; cbn [negb] in H; [|discriminate].
  destruct (Z.ltb_spec INT32_MAX (Z.of_nat (length data))); [discriminate|]. injection H as <- <-.
  split; [reflexivity|]. unfold INT32_MAX in *. split; [|].
  - pose proof (Z.div_mod (Z.of_nat (length data)) (h_reclen (c_hdr c)) ltac:(lia)). lia.
  - apply Z.div_le_upper_bound; [lia|]. nia.
Qed.

Lemma wstep_add cd op k p start cs w w' r : add_args op = Some (k, p) -> wf_op op -> 0 < start -> cfg_ok (w_cfg w) -> binv start cs (w_base w) ->
  wstep cd op w = (w', r) -> Z.of_nat (length (file w')) < 2 ^ 64 ->
  (w' = w /\ (r = Throw \/ r = UB)) \/
  exists x n, chunk_of cd (c_hdr (w_cfg w)) op = Some (x, n) /\ child_of k p = true /\ -2^31 <= n < 2^31 /\ n <> 0 /\
    (match op with WAddCompressed _ _ _ _ => True | _ => 0 < n end) /\
    binv start (cs ++ [(x, n)]) (w_base w') /\ w_cfg w' = w_cfg w /\
    ((INT32_MAX < Z.of_nat (length x) /\ r = Throw /\ w_loaded w' = w_loaded w /\ w_pages w' = w_pages w) \/
     (Z.of_nat (length x) <= INT32_MAX /\
      let nd := mkNode (mkEntry k (start + Z.of_nat (length (cdata cs))) (Z.of_nat (length x)) n) p in
      r = Ok (Some nd) /\ w_loaded w' = mset k nd (w_loaded w) /\ w_pages w' = file_node p k nd (w_pages w))).
Proof.
  intros A WF S G I H L.
  assert (Plain : forall data, some_node (add_node cd k data p w) = (w', r) ->
    (w' = w /\ (r = Throw \/ r = UB)) \/
    exists x n, packed_chunk cd (c_hdr (w_cfg w)) data = (x, n) /\ child_of k p = true /\ -2^31 <= n < 2^31 /\ n <> 0 /\ 0 < n /\
      binv start (cs ++ [(x, n)]) (w_base w') /\ w_cfg w' = w_cfg w /\
      ((INT32_MAX < Z.of_nat (length x) /\ r = Throw /\ w_loaded w' = w_loaded w /\ w_pages w' = w_pages w) \/
       (Z.of_nat (length x) <= INT32_MAX /\
        let nd := mkNode (mkEntry k (start + Z.of_nat (length (cdata cs))) (Z.of_nat (length x)) n) p in
        r = Ok (Some nd) /\ w_loaded w' = mset k nd (w_loaded w) /\ w_pages w' = file_node p k nd (w_pages w)))).
  { intros data H'. unfold add_node in H'. destruct data as [|d0 data']; [injection H' as <- <-; auto|].
    set (data := d0 :: data') in *. assert (ND : (0 < length data)%nat) by (cbn; lia). clearbody data.
    destruct (h_reclen (c_hdr (w_cfg w)) =? 0); [injection H' as <- <-; auto|].
    destruct (negb _); [injection H' as <- <-; auto|].
    destruct (do_add_node cd k data 0 false p w) as (w2, r2) eqn:D. 
    assert (L2 : Z.of_nat (length (file w2)) < 2 ^ 64) by (destruct r2; injection H' as <- <-; exact L).
    destruct (do_add_cases _ _ _ _ _ _ _ _ _ _ _ S I D L2) as [(-> & R)|(x & n & CS & CO & B & CF & T)].
    - left. destruct R as [-> | ->]; injection H' as <- <-; auto.
    - right. destruct (source_packed _ _ _ _ _ G CS) as (PK & LN & NM). exists x, n.
      destruct (good_eb_size _ G) as (_ & _ & _ & _ & RL).
      assert (0 < n) by nia. unfold INT32_MAX in NM.
      destruct T as [(Hx & -> & T1 & T2)|(Hx & -> & T1 & T2)]; injection H' as <- <-;
        (split; [symmetry; assumption|]); (split; [assumption|]); (split; [lia|]); (split; [lia|]); (split; [lia|]);
        (split; [assumption|]); (split; [assumption|]); [left|right]; now repeat split. }
  destruct op as [k1 data p1|k1 hp c p1|k1 data count p1| | | | ]; try discriminate A; injection A as -> ->; cbn [wstep chunk_of] in *.
  - destruct (Plain data H) as [T|(x & n & E & T)]; [left; exact T|right]. exists x, n. rewrite E. split; [reflexivity|exact T].
  - unfold add_node_points in H. destruct (c_pts c) as [|a l]; [injection H as <- <-; auto|].
    destruct (_ || _); [injection H as <- <-; auto|].
    destruct (points_pack hp c _ _) as [data| |]; [|injection H as <- <-; auto..].
    destruct (Plain data H) as [T|(x & n & E & T)]; [left; exact T|right]. exists x, n. rewrite E. split; [reflexivity|exact T].
  - unfold add_node_compressed in H. destruct (Z.eqb_spec count 0) as [C0|C0]; [injection H as <- <-; auto|].
    destruct (do_add_node cd k data count true p w) as (w2, r2) eqn:D. 
    assert (L2 : Z.of_nat (length (file w2)) < 2 ^ 64) by (destruct r2; injection H as <- <-; exact L).
    destruct WF as (_ & _ & CN).
    destruct (do_add_cases _ _ _ _ _ _ _ _ _ _ _ S I D L2) as [(-> & R)|(x & n & CS & CO & B & CF & T)].
    + left. destruct R as [-> | ->]; injection H as <- <-; auto.
    + right. injection CS as <- <-. exists data, count. split; [reflexivity|].
      destruct T as [(Hx & -> & T1 & T2)|(Hx & -> & T1 & T2)]; injection H as <- <-;
        (split; [assumption|]); (split; [lia|]); (split; [lia|]); (split; [exact Logic.I|]);
        (split; [assumption|]); (split; [assumption|]); [left|right]; now repeat split.
Qed.
