(* ModelAssign.v - assigning a whole header to the header of a Writer's configuration.
   Source: copc_writer.hpp:50 CopcConfig() gives the Writer's own configuration, copc_config.hpp:73 LasHeader() the shared header in
   it, and las/header.hpp:28 leaves LasHeader copy-assignable: *writer.CopcConfig()->LasHeader() = h. *)
From Verif Require Import Base ModelKey ModelEntry ModelGeom ModelPoint ModelHeader ModelVlr ModelExtents ModelConfig ModelStream ModelWriter.

(* the calls of a program before Close: those of ModelWriter and assignments *)
Inductive aop :=
| ACall (op : wop)
| AAssign (h : las_header).
(* the implicit copy assignment of LasHeader (header.hpp:22-164) replaces all members, also those without a setter *)
Definition assign_header (h : las_header) (w : writer) : writer :=
  let c := w_cfg w in with_cfg (mkCfg h (c_wkt c) (c_ebs c) (c_info c) (c_exts c)) w.
Definition astep (cd : codec) (op : aop) (w : writer) : writer * outcome (option node) :=
  match op with
  | ACall op => wstep cd op w
  | AAssign h => (assign_header h w, Ok None)
  end.
(* as ModelWriter.wrun *)
Fixpoint arun (cd : codec) (ops : list aop) (w : writer) : writer * list (aop * outcome (option node)) :=
  match ops with
  | [] => (w, [])
  | op :: r =>
      match astep cd op w with
      | (w, UB) => (w, [(op, UB)])
      | (w, res) => let '(w', l) := arun cd r w in (w', (op, res) :: l)
      end
  end.
