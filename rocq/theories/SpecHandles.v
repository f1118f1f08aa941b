(* SpecHandles.v - vocabulary for copies of a Writer *)
From Verif Require Import Base ModelFloat ModelKey ModelGeom ModelEntry ModelPoint ModelPoints ModelHeader ModelVlr ModelExtents ModelConfig
  ModelStream ModelWriter ModelLazReader ModelLife ModelShare ModelHandles SpecWriter.

Definition hlog := list (hop * outcome (option node)).
Definition no_ub (l : hlog) : Prop := Forall (fun x => snd x <> UB) l.
(* which file each Writer object writes, from what the program did: files are numbered in the order in which their
   Writers were constructed; a copy means the file of the original; assignment replaces; None: destroyed *)
Definition obj_file := list (option nat).
Definition file_of (m : obj_file) (i : nat) : option nat := match nth_error m i with Some (Some n) => Some n | _ => None end.
Definition started (l : hlog) : list (config * overrides) := flat_map (fun x => match x with (HNew c v, Ok _) => [(c, v)] | _ => [] end) l.
Definition follow (x : hop * outcome (option node)) (m : obj_file * nat) : obj_file * nat :=
  match x with
  | (HNew _ _, Ok _) => (fst m ++ [Some (snd m)], Datatypes.S (snd m))
  | (HCopy i, Ok _) => (fst m ++ [file_of (fst m) i], snd m)
  | (HAssign i j, Ok _) => (replace_nth i (file_of (fst m) j) (fst m), snd m)
  | (HDestroy i, Ok _) => (replace_nth i None (fst m), snd m)
  | _ => m
  end.
Definition objects (l : hlog) : obj_file := fst (fold_left (fun m x => follow x m) l ([], O)).
(* what reaches file n: a call through any object that means it; Close, the end of such an object, or the loss of the
   last such object by assignment *)
Inductive event := ECall (op : wop) (r : outcome (option node)) | EClose (r : outcome (option node)).
Definition means (n : nat) (o : option nat) : bool := match o with Some m => Nat.eqb m n | None => false end.
Definition reaches (n : nat) (m : obj_file) (x : hop * outcome (option node)) : list event :=
  match x with
  | (HCall i op, r) => if means n (file_of m i) then [ECall op r] else []
  | (HClose i, r) | (HDestroy i, r) => if means n (file_of m i) then [EClose r] else []
  | (HAssign i j, r) => if means n (file_of m i) && negb (existsb (means n) (replace_nth i (file_of m j) m)) then [EClose r] else []
  | _ => []
  end.
Fixpoint events_from (n : nat) (m : obj_file * nat) (l : hlog) : list event :=
  match l with [] => [] | x :: l => reaches n (fst m) x ++ events_from n (follow x m) l end.
Definition events (n : nat) (l : hlog) : list event := events_from n ([], O) l.
(* one Writer, without copies, making these calls and closings and getting these results *)
Inductive lone (cd : codec) (od : orders) : list event -> writer -> writer -> Prop :=
| lone_done w : lone cd od [] w w
| lone_call op r w w1 l w2 : wstep cd op w = (w1, r) -> lone cd od l w1 w2 -> lone cd od (ECall op r :: l) w w2
| lone_close r w w1 l w2 : close cd od w = (w1, r) -> lone cd od l w1 w2 -> lone cd od (EClose (match r with Ok _ => Ok None | Throw => Throw | UB => UB end) :: l) w w2.
(* all calls come before the first closing, and the closings succeed *)
Definition calls (l : log) : list event := map (fun x => ECall (fst x) (snd x)) l.
Definition calls_first (e : list event) (l : log) : Prop := exists k, e = calls l ++ EClose (Ok None) :: repeat (EClose (Ok None)) k.
