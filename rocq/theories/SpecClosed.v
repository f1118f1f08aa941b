(* SpecClosed.v - vocabulary for closed readers and for readers that share a stream *)
From Verif Require Import Base ModelReader ModelClosed.

(* the calls other than Close *)
Definition is_ask (c : fcall) : bool := match c with FAsk _ => true | FClose => false end.
(* the queries that only look at nodes and pages *)
Definition about_nodes (q : query) : bool :=
  match q with QFind _ | QChildren _ | QAllNodes | QPages | QDepth _ | QAtRes _ | QWithinRes _ | QNodesWithin _ _ | QNodesIntersect _ _ => true | _ => false end.
(* what reader i was asked, and what it answered *)
Definition of_reader {A} (i : nat) (l : list (nat * A)) : list A := map snd (filter (fun x => (fst x =? i)%nat) l).
