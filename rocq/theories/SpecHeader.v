(* SpecHeader.v - vocabulary for the LAS header *)
From Verif Require Import Base ModelFloat ModelGeom ModelPoint ModelHeader.

(* the values the writer passes fit their C++ types *)
(* the values passed by the writers: offset to the point data, point count, EVLR offset and count *)
Definition fits (po pc eo ec : Z) : Prop := 0 <= po < 2 ^ 32 /\ 0 <= pc < 2 ^ 64 /\ 0 <= eo < 2 ^ 64 /\ 0 <= ec < 2 ^ 32.
(* number of VLRs a file announces: LAZ, extra bytes, COPC info and extents, extended statistics *)
(* number of VLRs the header announces *)
Definition announced_vlrs (copc eb ex : bool) : Z := 1 + (if eb then 1 else 0) + (if copc then 2 else 0) + (if ex then 1 else 0).
(* a C string that fits its field with its terminator *)
Definition id_string (n : nat) (s : bytes) : Prop := ~ In 0 s /\ (length s < n)%nat.
