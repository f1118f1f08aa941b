(* ProofShare.v - readers that share a stream *)
From Verif Require Import Base BaseFacts ModelFloat ModelKey ModelGeom ModelEntry ModelPoint ModelPoints ModelHeader ModelVlr ModelExtents ModelConfig
  ModelStream ModelWriter ModelReader ModelClosed ModelShare SpecClosed SpecKey SpecPoint SpecWriter SpecHier SpecReader SpecData
  ProofReader ProofReader2 ProofReader3 ProofReader4 ProofReader6 ProofData3 ProofClosed.

Lemma replace_same {A} (a : A) : forall l i, (i < length l)%nat -> nth_error (replace_nth i a l) i = Some a.
Proof. induction l as [|b l IH]; intros [|i] H; cbn [length] in H; [lia|lia|reflexivity|]. apply IH. lia. Qed.
Lemma replace_other {A} (a : A) : forall l i j, i <> j -> nth_error (replace_nth i a l) j = nth_error l j.
Proof. induction l as [|b l IH]; intros [|i] [|j] H; try reflexivity; [now elim H|]. cbn [replace_nth nth_error]. apply IH. congruence. Qed.
Lemma with_fail_same r : r_fail r = false -> with_fail false r = r.
Proof. destruct r. cbn. now intros ->. Qed.

Section Share.
Variables (cd : codec) (od : rorders) (fuel : nat) (f : bytes) (off size : Z) (hs : list page_info) (c : config).
Hypothesis S0 : stored_hierarchy f off size hs.
Hypothesis FL : Z.of_nat (length f) < 2 ^ 63.
Hypothesis VA : visits_all od.
Lemma calm_answer q r r' a : answer_to cd od fuel q r = Some (r', a) -> calm f hs c r -> safe_query cd (c_hdr c) f hs q -> calm f hs c r'.
Proof.
  intros E K Q.   assert (exists o, ask cd od fuel q r = Some (r', o)) as (o & A). { rewrite ask_answer, E. destruct a; cbn [forget]; eauto. }
  now destruct (calm_ask cd f off size hs c S0 FL od fuel q r VA K Q _ _ A).
Qed.
Lemma shared_alone : forall cs s t l, sh_fail s = false -> (forall i r, nth_error (sh_readers s) i = Some r -> calm f hs c r) -> Forall (fun x => safe_query cd (c_hdr c) f hs (snd x)) cs ->
  shared_run cd od fuel cs s = Some (t, l) ->
  sh_fail t = false /\ forall i r, nth_error (sh_readers s) i = Some r -> exists r', nth_error (sh_readers t) i = Some r' /\ own_run cd od fuel (of_reader i cs) r = Some (r', of_reader i l).
Proof.
  induction cs as [|(j, q) cs IH]; intros s t l F K Q E; cbn [shared_run] in E.
  - assert (s = t /\ l = []) as (<- & ->) by (split; congruence). split; [exact F|]. intros i r I. exists r. split; [exact I|reflexivity].
  - inversion Q as [|? ? Q1 Q2]; subst. cbn [snd] in Q1. unfold shared_ask in E. destruct (nth_error (sh_readers s) j) as [r0|] eqn:J; [|discriminate]. pose proof (K j r0 J) as K0. rewrite F in E.
    rewrite with_fail_same in E by apply K0. destruct (answer_to cd od fuel q r0) as [(r1, a)|] eqn:A; [|discriminate]. pose proof (calm_answer q r0 r1 a A K0 Q1) as K1.
    assert (LJ : (j < length (sh_readers s))%nat) by (apply nth_error_Some; congruence).
    set (s1 := mkShared (r_fail r1) (replace_nth j r1 (sh_readers s))) in *.
    assert (N : a <> UB) by (intros ->; discriminate). assert (exists l1, shared_run cd od fuel cs s1 = Some (t, l1) /\ l = (j, a) :: l1) as (l1 & E1 & ->).
    { destruct a; [| |now elim N]; (destruct (shared_run cd od fuel cs s1) as [(t1, l1)|]; [|discriminate]; exists l1; split; congruence). }
    assert (K' : forall i r, nth_error (sh_readers s1) i = Some r -> calm f hs c r).
    { intros i r I. cbn [sh_readers s1] in I. destruct (Nat.eq_dec j i) as [<-|D]; [rewrite replace_same in I by exact LJ; assert (r1 = r) as <- by congruence; exact K1|]. rewrite replace_other in I by exact D. now apply (K i). }
    destruct (IH s1 t l1 (proj2 (proj1 K1)) K' Q2 E1) as (FT & R). split; [exact FT|]. intros i r I. unfold of_reader in *. cbn [filter fst]. destruct (Nat.eqb_spec j i) as [<-|D].
    + assert (r = r0) as -> by congruence. cbn [map snd own_run]. rewrite A. destruct (R j r1) as (r' & R1 & R2); [cbn [sh_readers s1]; now apply replace_same|]. exists r'. split; [exact R1|].
      destruct a; [now rewrite R2|now rewrite R2|now elim N].
    + apply (R i r). cbn [sh_readers s1]. now rewrite replace_other.
Qed.
End Share.
