(** * Model of vistautils/_graph.py *)
From Verif Require Import Prelude.

Section Graph.
Context {V : Type}.
Variable V_dec : forall a b : V, {a = b} + {a <> b}.
(** Python's == on nodes (_graph.py:21-32) *)
Definition veqb (a b : V) : bool := if V_dec a b then true else false.
(** "in" on a set of nodes (_graph.py:21-32, 80-96) *)
Definition mem (v : V) (l : list V) : bool := existsb (veqb v) l.

(** immutablecollections (third party), trusted: [immutableset(xs)] keeps first occurrences in
    order; [immutablesetmultidict(pairs)] keeps each distinct pair once, the values of a key in
    order of insertion. *)
Fixpoint iset_aux (seen xs : list V) : list V :=
  match xs with
  | [] => []
  | x :: r => if mem x seen then iset_aux seen r else x :: iset_aux (x :: seen) r
  end.
(** immutablecollections' immutableset: order of first occurrence (_graph.py:35-39) *)
Definition immutableset (xs : list V) : list V := iset_aux [] xs.
(** "in" on a set of edges (_graph.py:41-46) *)
Definition pair_mem (p : V * V) (l : list (V * V)) : bool :=
  existsb (fun q => veqb (fst p) (fst q) && veqb (snd p) (snd q)) l.
(** as below *)
Fixpoint isetmd_aux (seen xs : list (V * V)) : list (V * V) :=
  match xs with
  | [] => []
  | x :: r => if pair_mem x seen then isetmd_aux seen r else x :: isetmd_aux (x :: seen) r
  end.
(** immutablecollections' immutablesetmultidict, as the list of its distinct pairs (_graph.py:41-46) *)
Definition immutablesetmultidict (xs : list (V * V)) : list (V * V) := isetmd_aux [] xs.

(** _graph.py:49-70; [predecessors] (:98-100) is the inverse of [edges], computed on demand. *)
Record digraph := MkDigraph { nodes : list V; edges : list (V * V) }.
(** _graph.py:21-32 (validate_edges) + the converters (:35-46) *)
Definition mk_digraph (ns : list V) (es : list (V * V)) : res digraph :=
  let g := MkDigraph (immutableset ns) (immutablesetmultidict es) in
  if forallb (fun e => mem (fst e) (nodes g) && mem (snd e) (nodes g)) (edges g) then Ok g
  else Raise RuntimeError.
(** edges[node] *)
Definition successors (g : digraph) (v : V) : list V :=
  map snd (filter (fun e => veqb (fst e) v) (edges g)).
(** _graph.py:103-118 (InDegreeView): len(pred[n]) *)
Definition in_degree (g : digraph) (v : V) : nat :=
  length (filter (fun e => veqb (snd e) v) (edges g)).
(** _graph.py:103-118, iteration over the view *)
Definition in_degrees (g : digraph) : list (V * nat) := map (fun v => (v, in_degree g v)) (nodes g).

(** dict operations on [indegree_map] *)
Definition dget (d : list (V * nat)) (v : V) : option nat :=
  match find (fun p => veqb (fst p) v) d with Some p => Some (snd p) | None => None end.
(** d[v] = k on a dict (_graph.py:77-86) *)
Definition dset (d : list (V * nat)) (v : V) (k : nat) : list (V * nat) :=
  map (fun p => if veqb (fst p) v then (fst p, k) else p) d.
(** del d[v] on a dict (_graph.py:80-96) *)
Definition ddel (d : list (V * nat)) (v : V) : list (V * nat) :=
  filter (fun p => negb (veqb (fst p) v)) d.

(** _graph.py:82-86, the for loop over the children; [zero] is the stack [zero_indegree] with its
    top first (Python pops from and appends to the end). *)
Fixpoint visit (children : list V) (d : list (V * nat)) (zero : list V) : res (list (V * nat) * list V) :=
  match children with
  | [] => Ok (d, zero)
  | c :: r =>
      match dget d c with
      | None => Raise KeyError
      | Some k =>
          let d := dset d c (k - 1) in
          if Nat.eqb (k - 1) 0 then visit r (ddel d c) (c :: zero) else visit r d zero
      end
  end.
(** _graph.py:80-96: what the generator yields, and the exception raised at the end if any.
    [None] as a result means the fuel ran out. *)
Fixpoint topo_loop (fuel : nat) (g : digraph) (d : list (V * nat)) (zero : list V) : option (list V * option exn) :=
  match fuel with
  | 0 => None
  | S f =>
      match zero with
      | [] => Some ([], match d with [] => None | _ => Some ParameterInterpolationError end)
      | node :: rest =>
          match visit (successors g node) d rest with
          | Raise e => Some ([], Some e)
          | Ok (d', zero') =>
              match topo_loop f g d' zero' with
              | None => None
              | Some (ys, e) => Some (node :: ys, e)
              end
          end
      end
  end.
(** _graph.py:72-78 *)
Definition topological_sort (fuel : nat) (g : digraph) : option (list V * option exn) :=
  let indegree_map := filter (fun p => (0 <? snd p)%nat) (in_degrees g) in
  let zero_indegree := map fst (filter (fun p => (snd p =? 0)%nat) (in_degrees g)) in
  topo_loop fuel g indegree_map (rev zero_indegree).
End Graph.
Arguments digraph V : clear implicits.
