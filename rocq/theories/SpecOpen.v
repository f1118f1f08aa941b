(* SpecOpen.v - the records of an arbitrary LAS 1.4 file, by position *)
From Verif Require Import Base ModelStream ModelWriter SpecWriter SpecFile.

Definition las_header_size (f : bytes) : Z := num_at 94 2 f.
(* positions of the VLRs and EVLRs, counted from 0 *)
Definition vlr_pos (f : bytes) (i : nat) : Z := follow 54 2 i (las_header_size f) f.
Definition evlr_pos (f : bytes) (i : nat) : Z := follow 60 8 i (las_evlr_offset f) f.
(* the record at a position is the OGC WKT coordinate system: user id "LASF_Projection", record id 2112 *)
Definition wkt_at (f : bytes) (p : Z) : Prop :=
  bytes_at (p + 2) 16 f = [76; 65; 83; 70; 95; 80; 114; 111; 106; 101; 99; 116; 105; 111; 110; 0] /\ num_at (p + 18) 2 f = 2112.
(* the data of the VLR or EVLR at a position *)
Definition vlr_data (f : bytes) (p : Z) : bytes := bytes_at (p + 54) (num_at (p + 20) 2 f) f.
Definition evlr_data (f : bytes) (p : Z) : bytes := bytes_at (p + 60) (num_at (p + 20) 8 f) f.
(* the only WKT record of a file is its i-th EVLR, its i-th VLR; there is none *)
Definition only_wkt_evlr (f : bytes) (i : nat) : Prop :=
  Z.of_nat i < las_evlr_count f /\ wkt_at f (evlr_pos f i) /\ (forall j, Z.of_nat j < las_vlr_count f -> ~ wkt_at f (vlr_pos f j)) /\
  (forall j, Z.of_nat j < las_evlr_count f -> wkt_at f (evlr_pos f j) -> j = i).
Definition only_wkt_vlr (f : bytes) (i : nat) : Prop :=
  Z.of_nat i < las_vlr_count f /\ wkt_at f (vlr_pos f i) /\ (forall j, Z.of_nat j < las_evlr_count f -> ~ wkt_at f (evlr_pos f j)) /\
  (forall j, Z.of_nat j < las_vlr_count f -> wkt_at f (vlr_pos f j) -> j = i).
Definition no_wkt (f : bytes) : Prop :=
  (forall j, Z.of_nat j < las_vlr_count f -> ~ wkt_at f (vlr_pos f j)) /\ (forall j, Z.of_nat j < las_evlr_count f -> ~ wkt_at f (evlr_pos f j)).
