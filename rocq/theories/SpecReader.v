(* SpecReader.v - vocabulary for reading COPC files *)
From Coq Require Import Permutation.
From Verif Require Import Base ModelFloat ModelKey ModelGeom ModelEntry ModelPoint ModelPoints ModelHeader ModelVlr ModelExtents ModelConfig
  ModelStream ModelWriter ModelReader SpecKey SpecPoint SpecWriter SpecHier.

(* a call returns x (whatever bound above n0 is put on its recursion); it does not terminate *)
Definition returns {A} (f : nat -> call A) (r : reader) (x : outcome A) : Prop :=
  exists n0, forall n, (n0 <= n)%nat -> f n = Some (r, x).
Definition diverges {A} (f : nat -> call A) : Prop := forall n, f n = None.

(* whatever order containers are iterated in, every element is visited once *)
Definition visits_all (od : rorders) : Prop :=
  (forall k l, Permutation (ro_subs od k l) l) /\ (forall k l, Permutation (ro_nodes od k l) l) /\ (forall l, Permutation (ro_seen od l) l).

(* ---- page trees, possibly with damaged pages ---- *)
(* a page without an entry that has an invalid key or a negative size *)
Definition intact (i : page_info) : bool := forallb entry_valid (pi_ents i).
(* f stores the pages hs: every page is where it says, the root being the size bytes at off; what the
   undamaged pages say is consistent: entries lie within their page's cell, no key has two nodes, and
   every page but the root is referred to once, from the page that most tightly encloses it *)
Record page_tree (f : bytes) (off size : Z) (hs : list page_info) : Prop := {
  pt_keys : NoDup (map pi_key hs);
  pt_root : exists r, In r hs /\ pi_key r = root_key /\ pi_off r = off /\ pi_size r = size;
  pt_page : forall i, In i hs -> 0 <= pi_off i /\ pi_size i = 32 * Z.of_nat (length (pi_ents i)) /\ pi_size i <= INT32_MAX /\
    pi_off i + pi_size i <= Z.of_nat (length f) /\ bytes_at (pi_off i) (pi_size i) f = flat_map entry_pack (pi_ents i);
  pt_entry : forall i e, In i hs -> In e (pi_ents i) -> wf_entry e = true;
  pt_inside : forall i e, In i hs -> intact i = true -> In e (pi_ents i) -> child_of (e_key e) (pi_key i) = true;
  pt_nodes : NoDup (map e_key (node_entries (filter intact hs)));
  pt_subs : NoDup (map e_key (sub_entries (filter intact hs)));
  pt_sub : forall i e, In i hs -> intact i = true -> In e (pi_ents i) -> is_sub e = true -> e_key e <> pi_key i /\
    exists j, In j hs /\ pi_key j = e_key e /\ pi_off j = e_offset e /\ pi_size j = e_size e /\
      (forall q, In q hs -> child_of (e_key e) (pi_key q) = true -> pi_key q = e_key e \/ kd (pi_key q) <= kd (pi_key i));
  pt_up : forall j, In j hs -> pi_key j <> root_key ->
    exists i e, In i hs /\ intact i = true /\ In e (pi_ents i) /\ is_sub e = true /\ e_key e = pi_key j }.
(* node n is stored under k in an undamaged page; a Node also carries the key of its page *)
Definition stored_node (hs : list page_info) (k : key) (n : node) : Prop :=
  exists i e, In i hs /\ intact i = true /\ In e (pi_ents i) /\ is_sub e = false /\ e_key e = k /\ n = mkNode e (pi_key i).
(* a damaged page encloses k *)
Definition blocked (hs : list page_info) (k : key) : Prop := exists i, In i hs /\ intact i = false /\ child_of k (pi_key i) = true.
(* the nodes of page p and of the pages inside it *)
Definition nodes_below (hs : list page_info) (p : key) (n : node) : Prop :=
  exists i e, In i hs /\ child_of (pi_key i) p = true /\ In e (pi_ents i) /\ is_sub e = false /\ n = mkNode e (pi_key i).
(* a list holding exactly these nodes, each once *)
Definition exactly (l : list node) (P : node -> Prop) : Prop := NoDup (map n_key l) /\ forall n, In n l <-> P n.

(* a Reader that has just been opened on f, its root page being the size bytes at off *)
Definition fresh_reader (f : bytes) (off size : Z) (r : reader) : Prop :=
  r_data r = f /\ r_fail r = false /\ r_pages r = [new_rpage root_key off size] /\ r_seen r = [(root_key, 0%nat)] /\ r_nodes r = [].
(* a Reader after any queries, none of which was undefined (exceptions were caught) *)
Definition reader_after (cd : codec) (od : rorders) (r0 r : reader) : Prop := exists fuel qs, ask_all cd od fuel qs r0 = Some r.
(* a Reader in use on f, whose stream is still good *)
Definition in_use (f : bytes) (off size : Z) (r : reader) : Prop :=
  exists cd od r0, fresh_reader f off size r0 /\ reader_after cd od r0 r /\ r_fail r = false.
(* the nodes stored in the file *)
Definition stored_nodes (hs : list page_info) (n : node) : Prop := stored_node hs (n_key n) n.
(* page i has an entry that refers to page k *)
Definition refers_to (hs : list page_info) (i k : key) : Prop :=
  exists h e, In h hs /\ pi_key h = i /\ In e (pi_ents h) /\ is_sub e = true /\ e_key e = k.

(* ---- finite page trees in arbitrary files ---- *)
(* es are the entries stored one after another at the start of b *)
Fixpoint entries_from (b : bytes) (es : list entry) : Prop :=
  match es with [] => True | e :: l => exists b', entry_unpack b = Some (e, b') /\ entries_from b' l end.
(* the size bytes at off hold the entries es *)
Definition entries_at (f : bytes) (off size : Z) (es : list entry) : Prop :=
  length es = Z.to_nat (size / 32) /\ entries_from (skipn (Z.to_nat off) f) es.
(* following references from the page at off comes to an end *)
Inductive finite_tree (f : bytes) : Z -> Z -> Prop :=
| finite_page off size : (forall es e, entries_at f off size es -> In e es -> is_sub e = true -> finite_tree f (e_offset e) (e_size e)) -> finite_tree f off size.

(* ---- resolution ---- *)
(* the spacing at a depth *)
Fixpoint spacing_at (s : f64) (d : nat) : f64 := match d with O => s | S n => fdiv (spacing_at s n) (f64_of_Z 2) end.
(* the depth of the deepest node, -1 without nodes *)
Definition deepest (P : node -> Prop) (d : Z) : Prop :=
  (forall n, P n -> kd (n_key n) <= d) /\ ((d = -1 /\ forall n, ~ P n) \/ exists n, P n /\ kd (n_key n) = d).
(* o is the depth for a resolution: the smallest depth with at most that spacing, else the maximum depth *)
Definition depth_is (s res : f64) (maxd : Z) (o : outcome Z) : Prop :=
  (fle res f0 = true -> o = Ok maxd) /\
  (fle res f0 = false ->
     (forall d, 0 <= d <= maxd -> fle (spacing_at s (Z.to_nat d)) res = true -> (forall d', 0 <= d' < d -> fle (spacing_at s (Z.to_nat d')) res = false) -> o = Ok d) /\
     ((forall d, 0 <= d <= maxd -> fle (spacing_at s (Z.to_nat d)) res = false) -> maxd < INT32_MAX -> o = Ok maxd)).
