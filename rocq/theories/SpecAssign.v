(* SpecAssign.v - vocabulary for assigned headers *)
From Verif Require Import Base ModelKey ModelEntry ModelHeader ModelConfig ModelStream ModelWriter ModelAssign.

(* the same program with every assignment written out as changes of the members that have setters *)
Definition as_edit (op : aop) : wop := match op with ACall op => op | AAssign h => WSetHeader h end.
(* h agrees with h0 in everything that has no setter, but for the point count and the positions and numbers of VLRs and EVLRs,
   which may be those of the file that h was read from; its texts fit *)
Definition same_layout (h0 h : las_header) : Prop :=
  h_fmt h = h_fmt h0 /\ h_reclen h = h_reclen h0 /\ h_scale h = h_scale h0 /\ h_offset h = h_offset h0 /\ h_copc h = h_copc h0 /\
  (length (h_guid h) <= 16)%nat /\ (length (h_sys h) <= 32)%nat /\ (length (h_gen h) <= 32)%nat.
Definition fits_layout (h0 : las_header) (op : aop) : Prop := match op with ACall _ => True | AAssign h => same_layout h0 h end.
