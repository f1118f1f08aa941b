(* ModelPut.v - extent objects that a program shares with a Writer.
   Source: cpp/include/copc-lib/copc/extents.hpp (setters, copy assignment), python/bindings.cpp:594-654 (CopcExtent and CopcExtents).
   The slots of CopcExtents hold shared pointers; here a pointer is an index into the list of the program's extent objects. *)
From Verif Require Import Base ModelFloat ModelKey ModelEntry ModelGeom ModelPoint ModelHeader ModelVlr ModelExtents ModelConfig ModelStream ModelWriter.

(* the Writer, all CopcExtent objects, and the pointers in the slots of the Writer's CopcExtents (extents.hpp:225).  The extents in
   the Writer's configuration are the values of the objects: they are read through the pointers whenever they are used. *)
Record xstate := mkX { x_w : writer; x_heap : list extent; x_slots : list nat }.
(* copc_writer_public.cpp:20-60: the Writer's configuration is a copy, with extent objects of its own *)
Definition start (w : writer) : xstate := mkX w (xs_items (c_exts (w_cfg w))) (seq 0 (length (xs_items (c_exts (w_cfg w))))).
(* extents.hpp:225 seen through the pointers: the Writer with these values in its extents *)
Definition with_items (l : list extent) (w : writer) : writer :=
  let c := w_cfg w in with_cfg (mkCfg (c_hdr c) (c_wkt c) (c_ebs c) (c_info c) (mkExts (xs_fmt (c_exts c)) (xs_ext (c_exts c)) l)) w.
(* dereferencing (extents.hpp:225); a pointer to no object cannot occur: point_to *)
Definition look (h : list extent) (a : nat) : extent := nth a h default_extent.
(* extents.hpp:225: the state with these objects and pointers *)
Definition show (h : list extent) (s : list nat) (w : writer) : xstate := mkX (with_items (map (look h) s) w) h s.
(* the calls of a program (bindings.cpp:421, 562, 594-654) *)
Inductive xop :=
| XCall (op : wop)                       (* a call of ModelWriter; WSetExtent changes the object in a slot through its pointer *)
| XNew (mn mx mean var : f64)            (* CopcExtent(minimum, maximum, mean, var) *)
| XList (l : list f64)                   (* CopcExtent([...]) *)
| XChange (a : nat) (e : extent)         (* assigning the members of an object the program holds (bindings.cpp:599-602) *)
| XPut (d : dim) (a : nat)               (* extents.x = object, and so on *)
| XPutExtra (l : list nat)               (* extents.extra_bytes = [objects] *)
| XWhole (fmt : Z) (ext : bool) (l : list nat).   (* *writer.CopcConfig()->CopcExtents() = extents: of this format, with or without extended statistics *)
(* extents.hpp:141-189: the slot that a setter assigns *)
Definition setter_slot (fmt : Z) (d : dim) : outcome nat :=
  match d with
  | DX => Ok 0%nat | DY => Ok 1%nat | DZ => Ok 2%nat | DIntensity => Ok 3%nat | DReturnNumber => Ok 4%nat | DNumberOfReturns => Ok 5%nat
  | DScannerChannel => Ok 6%nat | DScanDirection => Ok 7%nat | DEdgeOfFlight => Ok 8%nat | DClassification => Ok 9%nat
  | DUserData => Ok 10%nat | DScanAngle => Ok 11%nat | DPointSource => Ok 12%nat | DGpsTime => Ok 13%nat
  | DRed => if 6 <? fmt then Ok 14%nat else Throw
  | DGreen => if 6 <? fmt then Ok 15%nat else Throw
  | DBlue => if 6 <? fmt then Ok 16%nat else Throw
  | DNir => if fmt =? 8 then Ok 17%nat else Throw
  end.
(* bindings.cpp:599-602 *)
Definition change (a : nat) (e : extent) (s : xstate) : xstate * outcome (option node) :=
  match set_nth a e (x_heap s) with
  | Ok h => (show h (x_slots s) (x_w s), Ok None)
  | Throw => (s, Throw) | UB => (s, UB)
  end.
(* an object that was created (bindings.cpp:595-598) *)
Definition create (x : outcome extent) (s : xstate) : xstate * outcome (option node) :=
  match x with
  | Ok e => (mkX (x_w s) (x_heap s ++ [e]) (x_slots s), Ok None)
  | Throw => (s, Throw) | UB => (s, UB)
  end.
(* pointers stored in slots; a pointer to no object is undefined *)
Definition point_to (x : outcome (list nat)) (s : xstate) : xstate * outcome (option node) :=
  match x with
  | Ok l => if forallb (fun a => (a <? length (x_heap s))%nat) l then (show (x_heap s) l (x_w s), Ok None) else (s, UB)
  | Throw => (s, Throw) | UB => (s, UB)
  end.
(* extents.hpp:191-196 *)
Definition put_extra (fmt : Z) (l s : list nat) : outcome (list nat) :=
  let! b := num_extents fmt 0 in
  if negb (Z.of_nat (length l) =? to_u 64 (Z.of_nat (length s) - b)) then Throw else copy_range (length l) 0 (Z.to_nat b) l s.
(* the implicit copy assignment of CopcExtents (extents.hpp:53-226) replaces the format and the flag and copies the pointers *)
Definition as_shape (fmt : Z) (ext : bool) (w : writer) : writer :=
  let c := w_cfg w in with_cfg (mkCfg (c_hdr c) (c_wkt c) (c_ebs c) (c_info c) (mkExts fmt ext (xs_items (c_exts c)))) w.
Definition assign_extents (fmt : Z) (ext : bool) (l : list nat) (s : xstate) : xstate * outcome (option node) :=
  if forallb (fun a => (a <? length (x_heap s))%nat) l then (show (x_heap s) l (as_shape fmt ext (x_w s)), Ok None) else (s, UB).
(* one call; a program's exceptions leave the objects as they are (extents.hpp:141-196, bindings.cpp:594-654) *)
Definition xstep (cd : codec) (op : xop) (s : xstate) : xstate * outcome (option node) :=
  let fmt := xs_fmt (c_exts (w_cfg (x_w s))) in
  match op with
  | XCall (WSetExtent i e) => match nth_error (x_slots s) i with Some a => change a e s | None => (s, UB) end
  | XCall op => let '(w, o) := wstep cd op (x_w s) in (mkX w (x_heap s) (x_slots s), o)
  | XNew mn mx mean var => create (new_extent mn mx mean var) s
  | XList l => create (extent_of_list l) s
  | XChange a e => change a e s
  | XPut d a => point_to (let! i := setter_slot fmt d in set_nth i a (x_slots s)) s
  | XPutExtra l => point_to (put_extra fmt l (x_slots s)) s
  | XWhole fmt ext l => assign_extents fmt ext l s
  end.
(* a program (as ModelWriter.wrun): the calls one after the other, up to an undefined one (copc_writer.hpp:25-90) *)
Fixpoint xrun (cd : codec) (ops : list xop) (s : xstate) : xstate * list (xop * outcome (option node)) :=
  match ops with
  | [] => (s, [])
  | op :: r =>
      match xstep cd op s with
      | (s, UB) => (s, [(op, UB)])
      | (s, res) => let '(s', l) := xrun cd r s in (s', (op, res) :: l)
      end
  end.
