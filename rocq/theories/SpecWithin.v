(* SpecWithin.v - selecting the points of a container that lie in a box *)
From Verif Require Import Base ModelFloat ModelGeom ModelPoint ModelPoints SpecGeom.
(* the object at address a is a point with numeric coordinates inside the closed box *)
Definition lies_in (h : heap) (b : box) (a : nat) : Prop :=
  exists p, nth_error h a = Some p /\ fnan (p_x p) = false /\ fnan (p_y p) = false /\ fnan (p_z p) = false /\
    mem b (ext (p_x p)) (ext (p_y p)) (ext (p_z p)).
(* r is what is left of l, in order, when exactly the elements satisfying P are kept *)
Inductive keeps {A} (P : A -> Prop) : list A -> list A -> Prop :=
| keeps_nil : keeps P [] []
| keeps_in a l r : P a -> keeps P l r -> keeps P (a :: l) (a :: r)
| keeps_out a l r : ~ P a -> keeps P l r -> keeps P (a :: l) r.
