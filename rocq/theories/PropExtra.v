(* PropExtra.v - C65, C66: copies of points, the text of a voxel key *)
From Coq Require Import String.
Import List.
From Verif Require Import Base BaseFacts ModelFloat ModelKey ModelPoint ModelMp SpecKey SpecPoint ProofPoint ProofPoint2 ProofMp2 PropPoint.
Open Scope Z_scope.

(* ---- C65: a copy of a point ---- *)
Theorem C65_copy : forall p, wf_point p -> exists q, copy_point p = Ok q /\ wf_point q /\
  p_fmt q = p_fmt p /\ p_reclen q = p_reclen p /\ p_x q = p_x p /\ p_y q = p_y p /\ p_z q = p_z p /\ p_intensity q = p_intensity p /\ p_returns q = p_returns p /\ p_flags q = p_flags p /\
  p_class q = p_class p /\ p_angle q = p_angle p /\ p_user q = p_user p /\ p_src q = p_src p /\ p_gps q = p_gps p /\ p_eb q = p_eb p /\
  get_red q = get_red p /\ get_green q = get_green p /\ get_blue q = get_blue p /\ get_nir q = get_nir p /\
  forall s o, point_pack q s o = point_pack p s o.
Proof.
  intros p W. unfold copy_point. rewrite (point_eb_size_ok p W). cbn [bind]. pose proof W as (F & RL & EL & W1 & W2 & W3 & W4 & W5 & W6 & W7 & W8 & W9 & W10 & W11 & WB & HR & HN).
  destruct (new_point (p_fmt p) (Z.of_nat (length (p_eb p)))) as [n| |] eqn:E.
  - assert (WN : wf_point n) by (eapply new_point_wf; [|exact E]; lia). destruct WN as (NF & NRL & NEL & N1 & N2 & N3 & N4 & N5 & N6 & N7 & N8 & N9 & N10 & N11 & NWB & NHR & NHN).
    unfold new_point in E. destruct (_ || _); [discriminate|]. apply bind_ok in E as (b & B & E). apply bind_ok in E as (g & G & E). apply bind_ok in E as (m & M & E). assert (EN : mkPoint (p_fmt p) (to_u 32 (b + Z.of_nat (length (p_eb p)))) f0 f0 f0 0 0 0 0 0 0 0 f0 0 0 0 0 g m (zeros (Z.to_nat (Z.of_nat (length (p_eb p))))) = n) by congruence.
    clear E. assert (FN : p_fmt n = p_fmt p) by (rewrite <- EN; reflexivity). assert (LN : length (p_eb n) = length (p_eb p)) by (rewrite <- EN; cbn [p_eb]; rewrite zeros_length, Nat2Z.id; reflexivity).
    assert (RN : p_reclen n = p_reclen p) by (rewrite NRL, FN, LN; now symmetry). rewrite FN in NHR, NHN. rewrite <- HR in NHR. rewrite <- HN in NHN. clear B G M.
    assert (CN : p_red n = 0 /\ p_green n = 0 /\ p_blue n = 0 /\ p_nir n = 0) by (rewrite <- EN; auto). destruct CN as (C1 & C2 & C3 & C4). clear EN NRL. cbn [bind].
    destruct p as [fmt reclen x y z it rt fl cl an us sr gps re gr bl ni rgb nir eb], n as [fmt' reclen' x' y' z' it' rt' fl' cl' an' us' sr' gps' re' gr' bl' ni' rgb' nir' eb'].
    cbn [p_fmt p_reclen p_x p_y p_z p_intensity p_returns p_flags p_class p_angle p_user p_src p_gps p_red p_green p_blue p_nir p_has_rgb p_has_nir p_eb] in *. subst fmt' reclen' rgb' nir' re' gr' bl' ni'.
    unfold get_red, get_green, get_blue, get_nir, fill_rgb, fill_common, with_nir, with_eb, point_pack. cbn [p_fmt p_reclen p_x p_y p_z p_intensity p_returns p_flags p_class p_angle p_user p_src p_gps p_red p_green p_blue p_nir p_has_rgb p_has_nir p_eb].
    destruct rgb, nir; cbn [bind p_fmt p_reclen p_x p_y p_z p_intensity p_returns p_flags p_class p_angle p_user p_src p_gps p_red p_green p_blue p_nir p_has_rgb p_has_nir p_eb]; (eexists; split; [reflexivity|]; split; [unfold wf_point; cbn; repeat (split; [assumption||lia|]); auto|]; repeat split; reflexivity).
  - exfalso. unfold new_point in E. destruct (Z.ltb_spec (p_fmt p) 6); [lia|]. destruct (Z.ltb_spec 8 (p_fmt p)); [lia|]. cbn [orb] in E. assert (D : p_fmt p = 6 \/ p_fmt p = 7 \/ p_fmt p = 8) by lia. destruct D as [D|[D|D]]; rewrite D in E; discriminate E.
  - exfalso. unfold new_point in E. destruct (Z.ltb_spec (p_fmt p) 6); [lia|]. destruct (Z.ltb_spec 8 (p_fmt p)); [lia|]. cbn [orb] in E. assert (D : p_fmt p = 6 \/ p_fmt p = 7 \/ p_fmt p = 8) by lia. destruct D as [D|[D|D]]; rewrite D in E; discriminate E.
Qed.
Print Assumptions C65_copy.
Theorem C65_copy_equal : forall p, wf_point p -> ffinite (p_x p) = true -> ffinite (p_y p) = true -> ffinite (p_z p) = true -> fnan (p_gps p) = false ->
  exists q, copy_point p = Ok q /\ point_eqb p q = Ok true /\ point_eqb q p = Ok true.
Proof.
  intros p W X Y Z G. destruct (C65_copy p W) as (q & C & WQ & E1 & E2 & E3 & E4 & E5 & E6 & E7 & E8 & E9 & E10 & E11 & E12 & E13 & E14 & E15 & E16 & E17 & E18 & _). exists q. split; [exact C|].
  assert (Q : point_eqb p q = point_eqb p p).
  { unfold point_eqb. rewrite E1, E2, E3, E4, E5, E6, E7, E8, E9, E10, E11, E12, E13, E14, E15, E16, E17, E18. reflexivity. }
  assert (R : point_eqb p q = Ok true) by (rewrite Q; now apply C15_equality_reflexive). split; [exact R|]. rewrite <- R. now apply C15_equality_symmetric.
Qed.
Print Assumptions C65_copy_equal.
Example C65_nonvacuous : let p := mkPoint 8 41 f1 f0 f1 65535 0xA3 0x5C 9 (-15000) 17 65000 f1 1 2 3 4 true true [7; 8; 9] in wf_point p /\ copy_point p = Ok p.
Proof. cbv zeta. split; [unfold wf_point; cbn; repeat split; try lia; repeat constructor; lia|reflexivity]. Qed.

(* ---- C66: the text of a key tells the key ---- *)
Theorem C66_text_identifies_key : forall j k, key_string j = key_string k -> j = k.
Proof. exact key_string_inj. Qed.
Print Assumptions C66_text_identifies_key.
Example C66_nonvacuous : key_string (mkKey 3 (-2) 10 0) = "(3, -2, 10, 0)"%string.
Proof. vm_compute. reflexivity. Qed.
