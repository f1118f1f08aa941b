(* ModelKey.v - model of VoxelKey.
   Source: cpp/include/copc-lib/hierarchy/key.hpp, cpp/src/hierarchy/key.cpp *)
From Verif Require Import Base.

(* key.hpp:80-83: struct of four int32_t *)
Record key := mkKey { kd : Z; kx : Z; ky : Z; kz : Z }.

(* the C++ field types (key.hpp:80-83) *)
Definition wf_key (k : key) : bool := i32 (kd k) && i32 (kx k) && i32 (ky k) && i32 (kz k).

(* key.hpp:29,40 default constructor / InvalidKey *)
Definition invalid_key : key := mkKey (-1) (-1) (-1) (-1).
(* key.hpp:41 RootKey *)
Definition root_key : key := mkKey 0 0 0 0.

(* key.hpp:30-38 constructor from a vector: throws unless 4 elements *)
Definition key_of_vec (v : list Z) : outcome key :=
  match v with
  | [d; x; y; z] => Ok (mkKey d x y z)
  | _ => Throw
  end.

(* key.hpp:43 *)
Definition key_valid (k : key) : bool :=
  (0 <=? kd k) && (0 <=? kx k) && (0 <=? ky k) && (0 <=? kz k).

(* key.hpp:104-107 operator== *)
Definition key_eqb (a b : key) : bool :=
  (kd a =? kd b) && (kx a =? kx b) && (ky a =? ky b) && (kz a =? kz b).

(* key.cpp:19-26, one step of the lambda in Bisect: *=2, then ++ when bit i of the
   direction is set; int32 overflow is undefined behaviour *)
Definition bisect_coord (v direction : Z) (i : Z) : outcome Z :=
  let! _ := defined (i32 (v * 2)) in
  let w := v * 2 in
  if Z.testbit direction i then
    let! _ := defined (i32 (w + 1)) in Ok (w + 1)
  else Ok w.

(* key.cpp:14-32 Bisect; direction is uint64_t *)
Definition bisect (k : key) (direction : Z) : outcome key :=
  let! _ := defined (i32 (kd k + 1)) in
  let! x := bisect_coord (kx k) direction 0 in
  let! y := bisect_coord (ky k) direction 1 in
  let! z := bisect_coord (kz k) direction 2 in
  Ok (mkKey (kd k + 1) x y z).

(* key.cpp:34-40 GetChildren *)
Definition get_children (k : key) : outcome (list key) :=
  mapM (bisect k) [0; 1; 2; 3; 4; 5; 6; 7].

(* key.cpp:42-49 GetParent; C++ '/' truncates (Z.quot) *)
Definition get_parent (k : key) : key :=
  if key_valid k then mkKey (kd k - 1) (Z.quot (kx k) 2) (Z.quot (ky k) 2) (Z.quot (kz k) 2)
  else invalid_key.

(* key.cpp:51-60 GetParentAtDepth; (int)pow(2, d - depth) is exact for exponents
   below 31 and an out-of-range conversion (undefined) from 31 on *)
Definition get_parent_at_depth (k : key) (depth : Z) : outcome key :=
  if negb (key_valid k) then Ok invalid_key
  else if (depth <? 0) || (kd k <? depth) then Throw
  else
    let! _ := defined (kd k - depth <? 31) in
    let r := 2 ^ (kd k - depth) in
    Ok (mkKey depth (Z.quot (kx k) r) (Z.quot (ky k) r) (Z.quot (kz k) r)).

(* key.cpp:71-76 the while loop of GetParents, on fuel; the depth drops by one each
   time, so d+1 iterations always reach an invalid key (lemma parents_loop_enough) *)
Fixpoint parents_loop (fuel : nat) (k : key) : list key :=
  match fuel with
  | O => []
  | S f => if key_valid k then k :: parents_loop f (get_parent k) else []
  end.

(* key.cpp:62-79 GetParents *)
Definition get_parents (include_self : bool) (k : key) : list key :=
  if negb (key_valid k) then []
  else (if include_self then [k] else [])
       ++ parents_loop (S (Z.to_nat (kd k))) (get_parent k).

(* key.cpp:81-89 ChildOf *)
Definition child_of (k parent : key) : bool :=
  existsb (fun p => key_eqb p parent) (get_parents true k).
